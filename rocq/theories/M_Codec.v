(** Model of the compressors, include/z5/compression/*.hxx: how they size buffers,
    which sizes they pass to the libraries, their loops and their error checks.  The
    libraries themselves (zlib, libdeflate, bzip2, liblzma, lz4, zstd, blosc) are
    parameters: one record per library whose functions are the calls that z5 makes.
    What the libraries promise is stated in S_Codec.v.

    Compressed data is a list of bytes; [b] is the input of compress, i.e. the
    sizeIn elements of [w] = sizeof(T) bytes at dataIn, so sizeIn * sizeof(T) is
    [lenN b].  [cap] is sizeOut * sizeof(T) as computed in size_t.  An exhausted
    [fuel] (a loop that never ends) and every access outside of a buffer are [UB].
    Simplified: no allocation fails (std::bad_alloc). *)
From Coq Require Import String.
From Verif Require Import M_Base M_Bytes M_Format M_Metadata.
Import List ListNotations.
Local Open Scope list_scope.
Local Open Scope N_scope.

(** Conversion to unsigned int and to int (32 bit, modulo 2^32): the members
    avail_in / avail_out of z_stream and bz_stream, the int arguments of lz4. *)
Definition u32 (n : N) : N := n mod 2 ^ 32.
Definition s32 (n : N) : Z :=
  let m := u32 n in if m <? 2 ^ 31 then Z.of_N m else (Z.of_N m - 2 ^ 32)%Z.

(** The [n] bytes at a pointer to the data [b]. *)
Definition bytes_at (n : N) (b : bytes) : outcome bytes :=
  if lenN b <? n then UB else Ok (firstn (N.to_nat n) b).

(** What a stream library is asked to do: Z_FINISH, LZMA_FINISH / Z_NO_FLUSH,
    LZMA_RUN; and what it answers: Z_OK, LZMA_OK / Z_STREAM_END, BZ_STREAM_END,
    LZMA_STREAM_END / anything else. *)
Inductive flush := Run | Finish.
Inductive answer := AnsOk | AnsEnd | AnsOther.

(** A call on a stream: the new state, the number of input bytes consumed, the bytes
    written to next_out, the return value. *)
Definition stream_call (S : Type) := S -> flush -> bytes -> N -> S * N * bytes * answer.

(** Memory of [cap] bytes whose first bytes are [acc]; the library writes [out] at
    [off].  Simplified: bytes that are skipped become 0 (in C++ they keep their value);
    this needs a library that pauses in the middle of an element. *)
Definition write_at (cap : N) (acc : bytes) (off : N) (out : bytes) : outcome bytes :=
  if cap <? off + lenN out then UB
  else
    let gap := repeat 0 (N.to_nat (off - lenN acc)) in
    Ok (firstn (N.to_nat off) acc ++ gap ++ out ++ skipn (N.to_nat (off + lenN out)) acc).

(** The decompression loops of ZlibCompressor and XzCompressor,
    include/z5/compression/zlib_compressor.hxx:192-204 ([trunc] = conversion to uInt,
    action Z_FINISH throughout) and include/z5/compression/xz_compressor.hxx:108-123
    (LZMA_FINISH once all input is consumed).  [pos] is currentPosition, in elements;
    [total] is total_out.  Returns the bytes at dataOut. *)
Fixpoint decode_loop {S} (call : stream_call S) (trunc : N -> N) (w cap : N) (fuel : nat)
    (s : S) (act : flush) (inp : bytes) (pos total : N) (acc : bytes) : outcome bytes :=
  match fuel with
  | O => UB
  | S fuel' =>
      let avail_out := trunc (subw cap (mulw pos w)) in
      let '(s', used, out, ret) := call s act inp avail_out in
      let! acc' := write_at cap acc (pos * w) out in
      let total' := total + lenN out in
      let inp' := skipn (N.to_nat used) inp in
      let act' := match inp' with [] => Finish | _ => act end in
      match ret with
      | AnsOk => decode_loop call trunc w cap fuel' s' act' inp' (total' / w) total' acc'
      | AnsEnd => Ok acc'
      | AnsOther => Throw ERuntime
      end
  end.

(** ** zlib *)

(** The calls to zlib; the stream format is zlib (RFC 1950) or gzip (RFC 1952).
    [zl_deflate] is the first call of deflate on a new stream, [zl_left] bounds the
    number of calls of inflate that still return Z_OK. *)
Record zlib_lib := ZlibLib {
  zl_state : Type;
  zl_deflate_init : bool -> Z -> bool;
  zl_bound : bool -> Z -> N -> N;
  zl_deflate : bool -> Z -> flush -> bytes -> N -> answer * bytes;
  zl_inflate_init : option zl_state;
  zl_inflate : stream_call zl_state;
  zl_left : zl_state -> bytes -> nat
}.

(** ZlibCompressor::compress, include/z5/compression/zlib_compressor.hxx:128-170; the
    output buffer has deflateBound bytes, avail_in and avail_out are 32 bit. *)
Definition zlib_compress (z : zlib_lib) (zlib_format : bool) (level : Z) (b : bytes) : outcome bytes :=
  if negb (zl_deflate_init z zlib_format level) then Throw ERuntime
  else
    let bound := zl_bound z zlib_format level (lenN b) in
    let! inp := bytes_at (u32 (lenN b)) b in
    let '(ret, out) := zl_deflate z zlib_format level Finish inp (u32 bound) in
    if bound <? lenN out then UB
    else match ret with AnsEnd => Ok out | _ => Throw ERuntime end.

(** ZlibCompressor::decompress, include/z5/compression/zlib_compressor.hxx:173-212. *)
Definition zlib_decompress (z : zlib_lib) (w : N) (payload : bytes) (cap : N) : outcome bytes :=
  match zl_inflate_init z with
  | None => Throw ERuntime
  | Some s =>
      let! inp := bytes_at (u32 (lenN payload)) payload in
      decode_loop (@zl_inflate z) u32 w cap (S (zl_left s inp)) s Finish inp 0 0 []
  end.

(** ** libdeflate *)

(** The calls to libdeflate; [ld_compress] is [] where it returns 0, [ld_decompress]
    returns success and the bytes it wrote. *)
Record deflate_lib := DeflateLib {
  ld_alloc_compressor : Z -> bool;
  ld_alloc_decompressor : bool;
  ld_bound : bool -> Z -> N -> N;
  ld_compress : bool -> Z -> bytes -> N -> bytes;
  ld_decompress : bool -> bytes -> N -> bool * bytes
}.

(** Clamp of the level, include/z5/compression/zlib_compressor.hxx:56-58. *)
Definition clamp_level (level : Z) : Z :=
  if (level <? 1)%Z then 1%Z else if (12 <? level)%Z then 12%Z else level.

(** ZlibCompressor::compress with libdeflate,
    include/z5/compression/zlib_compressor.hxx:48-89. *)
Definition deflate_compress (l : deflate_lib) (zlib_format : bool) (level : Z) (b : bytes) : outcome bytes :=
  let lv := clamp_level level in
  if negb (ld_alloc_compressor l lv) then Throw ERuntime
  else
    let bound := ld_bound l zlib_format lv (lenN b) in
    let out := ld_compress l zlib_format lv b bound in
    if bound <? lenN out then UB
    else match out with [] => Throw ERuntime | _ => Ok out end.

(** ZlibCompressor::decompress with libdeflate,
    include/z5/compression/zlib_compressor.hxx:92-124; a second attempt with the other
    wrapper overwrites what the first one wrote. *)
Definition deflate_decompress (l : deflate_lib) (zlib_format : bool) (payload : bytes) (cap : N) : outcome bytes :=
  if negb (ld_alloc_decompressor l) then Throw ERuntime
  else
    let '(ok, out) := ld_decompress l zlib_format payload cap in
    let! acc := write_at cap [] 0 out in
    if ok then Ok acc
    else
      let '(ok2, out2) := ld_decompress l (negb zlib_format) payload cap in
      let! acc2 := write_at cap acc 0 out2 in
      if ok2 then Ok acc2 else Throw ERuntime.

(** ** bzip2 *)

(** The calls to bzip2: BZ2_bzCompress(BZ_FINISH) and BZ2_bzDecompress on a new
    stream. *)
Record bzip2_lib := Bzip2Lib {
  bz_compress_init : Z -> bool;
  bz_compress : Z -> bytes -> N -> answer * bytes;
  bz_decompress_init : bool;
  bz_decompress : bytes -> N -> answer * bytes
}.

(** [n] rounded to [p] significant bits, ties to even. *)
Definition round_sig (p n : N) : N :=
  let u := 2 ^ (N.log2 n + 1 - p) in
  let q := n / u in
  let r := n mod u in
  if 2 * r <? u then q * u
  else if u <? 2 * r then (q + 1) * u
  else if N.even q then q * u else (q + 1) * u.

(** static_cast<std::size_t>(0.01 * static_cast<float>(n)),
    include/z5/compression/bzip2_compressor.hxx:31: the float has 24 bits, the double
    0.01 is 5764607523034235 / 2^59, the product is rounded to 53 bits. *)
Definition one_percent (n : N) : N :=
  round_sig 53 (round_sig 24 n * 5764607523034235) / 2 ^ 59.

(** outSize, include/z5/compression/bzip2_compressor.hxx:31-32. *)
Definition bzip2_room (w n : N) : N := addw (mulw w (addw n (one_percent n))) 600.

(** Bzip2Compressor::compress, include/z5/compression/bzip2_compressor.hxx:26-64:
    dataOut is filled with zeros to outSize and cut by what is left in avail_out. *)
Definition bzip2_compress (z : bzip2_lib) (w : N) (level : Z) (b : bytes) : outcome bytes :=
  let outSize := bzip2_room w (lenN b / w) in
  if negb (bz_compress_init z level) then Throw ERuntime
  else
    let! inp := bytes_at (u32 (lenN b)) b in
    let '(ret, out) := bz_compress z level inp (u32 outSize) in
    if outSize <? lenN out then UB
    else match ret with
         | AnsEnd => Ok (out ++ repeat 0 (N.to_nat (outSize - u32 outSize)))
         | _ => Throw ERuntime
         end.

(** Bzip2Compressor::decompress, include/z5/compression/bzip2_compressor.hxx:67-99. *)
Definition bzip2_decompress (z : bzip2_lib) (payload : bytes) (cap : N) : outcome bytes :=
  if negb (bz_decompress_init z) then Throw ERuntime
  else
    let! inp := bytes_at (u32 (lenN payload)) payload in
    let '(ret, out) := bz_decompress z inp (u32 cap) in
    let! acc := write_at cap [] 0 out in
    match ret with AnsEnd => Ok acc | _ => Throw ERuntime end.

(** ** xz *)

(** The calls to liblzma: lzma_easy_encoder, lzma_stream_decoder and lzma_code;
    [xz_eleft] and [xz_dleft] bound the number of calls that still return LZMA_OK. *)
Record xz_lib := XzLib {
  xz_estate : Type;
  xz_encoder : Z -> option xz_estate;
  xz_encode : stream_call xz_estate;
  xz_eleft : xz_estate -> bytes -> nat;
  xz_dstate : Type;
  xz_decoder : option xz_dstate;
  xz_decode : stream_call xz_dstate;
  xz_dleft : xz_dstate -> bytes -> nat
}.

(** The loop of XzCompressor::compress, include/z5/compression/xz_compressor.hxx:62-80;
    [acc] is dataOut. *)
Fixpoint xz_loop {S} (call : stream_call S) (buffer_size : N) (fuel : nat)
    (s : S) (act : flush) (inp acc : bytes) : outcome bytes :=
  match fuel with
  | O => UB
  | S fuel' =>
      let '(s', used, out, ret) := call s act inp buffer_size in
      if buffer_size <? lenN out then UB
      else
        let acc' := acc ++ out in
        let inp' := skipn (N.to_nat used) inp in
        let act' := match inp' with [] => Finish | _ => act end in
        match ret with
        | AnsOk => xz_loop call buffer_size fuel' s' act' inp' acc'
        | AnsEnd => Ok acc'
        | AnsOther => Throw ERuntime
        end
  end.

(** XzCompressor::compress, include/z5/compression/xz_compressor.hxx:32-88. *)
Definition xz_compress (z : xz_lib) (level : Z) (b : bytes) : outcome bytes :=
  match xz_encoder z level with
  | None => Throw ERuntime
  | Some s => xz_loop (@xz_encode z) 262144 (S (xz_eleft s b)) s Run b []
  end.

(** XzCompressor::decompress, include/z5/compression/xz_compressor.hxx:91-131. *)
Definition xz_decompress (z : xz_lib) (w : N) (payload : bytes) (cap : N) : outcome bytes :=
  match xz_decoder z with
  | None => Throw ERuntime
  | Some s => decode_loop (@xz_decode z) (fun n => n) w cap (S (xz_dleft s payload)) s Run payload 0 0 []
  end.

(** ** lz4 *)

(** The calls to lz4: LZ4_compressBound, LZ4_compress_default and LZ4_decompress_safe;
    [] where the result is not positive. *)
Record lz4_lib := Lz4Lib {
  l4_bound : N -> N;
  l4_compress : bytes -> N -> bytes;
  l4_decompress : bytes -> Z -> Z -> bytes
}.

(** LZ4_MAX_INPUT_SIZE of lz4.h. *)
Definition lz4_max_input : N := 2113929216.

(** Lz4Compressor::compress, include/z5/compression/lz4_compressor.hxx:27-46. *)
Definition lz4_compress (z : lz4_lib) (b : bytes) : outcome bytes :=
  if lz4_max_input <? lenN b then Throw ERuntime
  else
    let outSize := l4_bound z (lenN b) in
    let out := l4_compress z b outSize in
    if outSize <? lenN out then UB
    else match out with [] => Throw ERuntime | _ => Ok out end.

(** Lz4Compressor::decompress, include/z5/compression/lz4_compressor.hxx:48-55; the
    sizes are converted to int. *)
Definition lz4_decompress (z : lz4_lib) (payload : bytes) (cap : N) : outcome bytes :=
  let out := l4_decompress z payload (s32 (lenN payload)) (s32 cap) in
  match out with [] => Throw ERuntime | _ => write_at cap [] 0 out end.

(** ** zstd *)

(** The calls to zstd; [None] where ZSTD_isError. *)
Record zstd_lib := ZstdLib {
  zs_bound : N -> N;
  zs_compress : Z -> bytes -> N -> option bytes;
  zs_decompress : bytes -> N -> option bytes
}.

(** ZstdCompressor::compress, include/z5/compression/zstd_compressor.hxx:26-42. *)
Definition zstd_compress (z : zstd_lib) (level : Z) (b : bytes) : outcome bytes :=
  let outSize := zs_bound z (lenN b) in
  match zs_compress z level b outSize with
  | None => Throw ERuntime
  | Some out => if outSize <? lenN out then UB else Ok out
  end.

(** ZstdCompressor::decompress, include/z5/compression/zstd_compressor.hxx:44-53. *)
Definition zstd_decompress (z : zstd_lib) (payload : bytes) (cap : N) : outcome bytes :=
  match zs_decompress z payload cap with
  | None => Throw ERuntime
  | Some out => write_at cap [] 0 out
  end.

(** ** blosc *)

(** blosc_compress_ctx(clevel, doshuffle, typesize, nbytes, src, dest, destsize,
    compressor, blocksize, numinternalthreads) and blosc_decompress_ctx(src, dest,
    destsize, numinternalthreads).  The latter is not told the length of src: it gets
    the memory behind the pointer, and returns how many bytes of it it looked at.  []
    where the result is not positive. *)
Record blosc_lib := BloscLib {
  bl_compress : Z -> Z -> N -> bytes -> N -> string -> Z -> Z -> bytes;
  bl_decompress : (N -> N) -> N -> Z -> N * bytes
}.

(** BLOSC_MAX_OVERHEAD of blosc.h. *)
Definition blosc_max_overhead : N := 16.

(** BloscCompressor::compress, include/z5/compression/blosc_compressor.hxx:24-48. *)
Definition blosc_compress (z : blosc_lib) (w : N) (level shuffle : Z) (codec : string)
    (blocksize nthreads : Z) (b : bytes) : outcome bytes :=
  let sizeOut := addw (lenN b) blosc_max_overhead in
  let out := bl_compress z level shuffle w b sizeOut codec blocksize nthreads in
  if sizeOut <? lenN out then UB
  else match out with [] => Throw ERuntime | _ => Ok out end.

(** Memory that starts with [b]; what follows is not known ([rest]). *)
Definition memory (b : bytes) (rest : N -> N) (i : N) : N :=
  match nth_error b (N.to_nat i) with Some x => x | None => rest i end.

(** BloscCompressor::decompress, include/z5/compression/blosc_compressor.hxx:50-63.
    The memory behind the buffer reads as 0, but looking at it is [UB]. *)
Definition blosc_decompress (z : blosc_lib) (nthreads : Z) (payload : bytes) (cap : N) : outcome bytes :=
  let '(seen, out) := bl_decompress z (memory payload (fun _ => 0)) cap nthreads in
  if lenN payload <? seen then UB
  else match out with [] => Throw ERuntime | _ => write_at cap [] 0 out end.

(** ** The compressor of a dataset *)

(** The libraries; z5 is built with zlib or with libdeflate (WITH_LIBDEFLATE). *)
Record libraries := Libraries {
  lib_gzip : zlib_lib + deflate_lib;
  lib_bzip2 : bzip2_lib;
  lib_xz : xz_lib;
  lib_lz4 : lz4_lib;
  lib_zstd : zstd_lib;
  lib_blosc : blosc_lib
}.

(** The compressor object that init_compressor, include/z5/dataset.hxx:187-217, makes
    for a dataset with elements of [w] bytes; RawCompressor,
    include/z5/compression/raw_compressor.hxx:19-26, throws when called. *)
Definition codec_of (l : libraries) (w : N) (c : codec_config) : codec :=
  match c with
  | Cfg_raw => Codec true (fun _ => Throw ERuntime) (fun _ _ => Throw ERuntime)
  | Cfg_blosc lv sh cn bs nt =>
      Codec false (blosc_compress (lib_blosc l) w lv sh cn bs nt) (blosc_decompress (lib_blosc l) nt)
  | Cfg_zlib lv f =>
      match lib_gzip l with
      | inl z => Codec false (zlib_compress z f lv) (zlib_decompress z w)
      | inr d => Codec false (deflate_compress d f lv) (deflate_decompress d f)
      end
  | Cfg_bzip2 lv => Codec false (bzip2_compress (lib_bzip2 l) w lv) (bzip2_decompress (lib_bzip2 l))
  | Cfg_lz4 _ => Codec false (lz4_compress (lib_lz4 l)) (lz4_decompress (lib_lz4 l))
  | Cfg_xz lv => Codec false (xz_compress (lib_xz l) lv) (xz_decompress (lib_xz l) w)
  | Cfg_zstd lv => Codec false (zstd_compress (lib_zstd l) lv) (zstd_decompress (lib_zstd l))
  end.
