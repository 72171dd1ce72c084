(** What the compression libraries promise, taken from their manuals, and the
    specification of the compressors built on top of them. *)
From Coq Require Import String.
From Verif Require Import M_Base M_Bytes M_Format M_Metadata M_Codec S_Format.
Import List ListNotations.
Local Open Scope list_scope.
Local Open Scope N_scope.

(** A format says which byte strings decode to which. *)
Definition format := bytes -> bytes -> Prop.

(** A stream library stays inside of the buffers it is given, writes bytes and does
    not go on forever. *)
Definition stream_bounded {S} (call : stream_call S) (left : S -> bytes -> nat) : Prop :=
  forall s act inp room s' used out ret, Forall is_byte inp ->
    call s act inp room = (s', used, out, ret) ->
    used <= lenN inp /\ lenN out <= room /\ Forall is_byte out /\
    (ret = AnsOk -> (left s' (skipn (N.to_nat used) inp) < left s inp)%nat).

(** zlib.  deflateInit accepts the levels -1 to 9; one call of deflate with Z_FINISH
    ends the stream if there are deflateBound bytes of room, and what it then
    wrote decodes to the input; inflate with Z_FINISH and room for everything decodes
    both wrappers in one call (MAX_WBITS + 32) and never answers Z_OK. *)
Record zlib_contract (z : zlib_lib) (fmt : bool -> format) : Prop := {
  zc_init : forall f level, (-1 <= level <= 9)%Z -> zl_deflate_init z f level = true;
  zc_deflate : forall f level b room, Forall is_byte b ->
    forall ret out, zl_deflate z f level Finish b room = (ret, out) ->
    lenN out <= room /\ Forall is_byte out /\ (ret = AnsEnd -> fmt f out b) /\
    ((-1 <= level <= 9)%Z -> zl_bound z f level (lenN b) <= room -> ret = AnsEnd);
  zc_start : exists s, zl_inflate_init z = Some s /\
    forall f e b room, fmt f e b -> Forall is_byte e -> lenN b <= room ->
      exists s', zl_inflate s Finish e room = (s', lenN e, b, AnsEnd);
  zc_bounded : stream_bounded (@zl_inflate z) (@zl_left z)
}.

(** libdeflate.  Compressors exist for the levels 1 to 12; compression succeeds with the
    room of its bound, and if it succeeds the output decodes to the input;
    decompression of a stream with the right wrapper succeeds if there is room, with
    the other wrapper it fails. *)
Record deflate_contract (l : deflate_lib) (fmt : bool -> format) : Prop := {
  dc_compressor : forall level, (1 <= level <= 12)%Z -> ld_alloc_compressor l level = true;
  dc_decompressor : ld_alloc_decompressor l = true;
  dc_compress : forall f level b room, Forall is_byte b ->
    lenN (ld_compress l f level b room) <= room /\ Forall is_byte (ld_compress l f level b room) /\
    (ld_compress l f level b room <> [] -> fmt f (ld_compress l f level b room) b) /\
    ((1 <= level <= 12)%Z -> ld_bound l f level (lenN b) <= room -> ld_compress l f level b room <> []);
  dc_decompress : forall f e b room, fmt f e b -> Forall is_byte e -> lenN b <= room ->
    ld_decompress l f e room = (true, b) /\ fst (ld_decompress l (negb f) e room) = false;
  dc_bounded : forall f e room, Forall is_byte e ->
    lenN (snd (ld_decompress l f e room)) <= room /\ Forall is_byte (snd (ld_decompress l f e room))
}.

(** bzip2.  Levels 1 to 9; one call with BZ_FINISH ends the stream if there are
    [need n] bytes of room for [n] bytes of input. *)
Record bzip2_contract (z : bzip2_lib) (fmt : format) (need : N -> N) : Prop := {
  bc_init : forall level, (1 <= level <= 9)%Z -> bz_compress_init z level = true;
  bc_compress : forall level b room, Forall is_byte b ->
    forall ret out, bz_compress z level b room = (ret, out) ->
    lenN out <= room /\ Forall is_byte out /\ (ret = AnsEnd -> fmt out b) /\
    ((1 <= level <= 9)%Z -> need (lenN b) <= room -> ret = AnsEnd);
  bc_decompress_init : bz_decompress_init z = true;
  bc_decompress : forall e b room, fmt e b -> Forall is_byte e -> lenN b <= room ->
    bz_decompress z e room = (AnsEnd, b);
  bc_bounded : forall e room, Forall is_byte e ->
    lenN (snd (bz_decompress z e room)) <= room /\ Forall is_byte (snd (bz_decompress z e room))
}.

(** What the manual of bzip2 asks for: 1% and 600 bytes more than the input. *)
Definition bzip2_documented (n : N) : N := n + (n + 99) / 100 + 600.

(** How z5 calls lzma_code: with LZMA_RUN while there is input, then with
    LZMA_FINISH. *)
Definition lzma_use (act : flush) (inp : bytes) : Prop :=
  match act with Run => inp <> [] | Finish => inp = [] end.

(** liblzma.  [enc s fed out]: an encoder in state [s] has consumed [fed] and written
    [out]; it never fails, and once it answers LZMA_STREAM_END everything is written.
    [dec s e b]: a decoder in state [s] that is given [e] will write [b]; it writes all
    of it as soon as there is room and does not fail. *)
Record xz_contract (z : xz_lib) (fmt : format) (enc : xz_estate z -> bytes -> bytes -> Prop)
    (dec : xz_dstate z -> bytes -> bytes -> Prop) : Prop := {
  xc_encoder : forall level, (0 <= level <= 9)%Z -> xz_encoder z level <> None;
  xc_encoder_any : forall level s, xz_encoder z level = Some s -> enc s [] [];
  xc_encode : forall s fed out act inp room s' used new ret, enc s fed out -> Forall is_byte inp ->
    0 < room -> lzma_use act inp -> xz_encode s act inp room = (s', used, new, ret) ->
    ret <> AnsOther /\
    (ret = AnsOk -> enc s' (fed ++ firstn (N.to_nat used) inp) (out ++ new)) /\
    (ret = AnsEnd -> fmt (out ++ new) (fed ++ inp));
  xc_encode_bounded : stream_bounded (@xz_encode z) (@xz_eleft z);
  xc_decoder : exists s, xz_decoder z = Some s /\ forall e b, fmt e b -> Forall is_byte e -> dec s e b;
  xc_decode : forall s e b act room s' used new ret, dec s e b -> Forall is_byte e ->
    lenN b <= room -> lzma_use act e -> xz_decode s act e room = (s', used, new, ret) ->
    new = b /\ ret <> AnsOther /\ (ret = AnsOk -> dec s' (skipn (N.to_nat used) e) []);
  xc_decode_bounded : stream_bounded (@xz_decode z) (@xz_dleft z);
  xc_nonempty : forall e b, fmt e b -> e <> []
}.

(** lz4.  Sizes are ints; a negative one is an error. *)
Record lz4_contract (z : lz4_lib) (fmt : format) : Prop := {
  lc_compress : forall b room, Forall is_byte b ->
    lenN (l4_compress z b room) <= room /\ Forall is_byte (l4_compress z b room) /\
    (l4_compress z b room <> [] -> fmt (l4_compress z b room) b) /\
    (0 < lenN b -> lenN b <= lz4_max_input -> l4_bound z (lenN b) <= room -> l4_compress z b room <> []);
  lc_bound : forall n, n <= lz4_max_input -> l4_bound z n < 2 ^ 31;
  lc_decompress : forall e b room, fmt e b -> Forall is_byte e -> (Z.of_N (lenN b) <= room < 2 ^ 31)%Z ->
    (Z.of_N (lenN e) < 2 ^ 31)%Z -> l4_decompress z e (Z.of_N (lenN e)) room = b;
  lc_bounded : forall e n room, Forall is_byte e -> (n <= Z.of_N (lenN e))%Z ->
    (Z.of_N (lenN (l4_decompress z e n room)) <= Z.max 0 room)%Z /\ Forall is_byte (l4_decompress z e n room)
}.

(** zstd.  Inputs of at most [limit] bytes. *)
Record zstd_contract (z : zstd_lib) (fmt : format) (limit : N) : Prop := {
  sc_compress : forall level b room e, Forall is_byte b -> zs_compress z level b room = Some e ->
    lenN e <= room /\ Forall is_byte e /\ fmt e b;
  sc_room : forall level b room, Forall is_byte b -> lenN b <= limit -> zs_bound z (lenN b) <= room ->
    zs_compress z level b room <> None;
  sc_decompress : forall e b room, fmt e b -> Forall is_byte e -> lenN b <= room ->
    zs_decompress z e room = Some b;
  sc_bounded : forall e room out, Forall is_byte e -> zs_decompress z e room = Some out ->
    lenN out <= room /\ Forall is_byte out
}.

(** blosc.  Levels 0 to 9, inputs of at most [limit] bytes; with BLOSC_MAX_OVERHEAD bytes
    more room than input compression succeeds.  Decompression looks at the 16 bytes
    of the header, and of a complete buffer at nothing else than the buffer. *)
Record blosc_contract (z : blosc_lib) (fmt : format) (limit : N) : Prop := {
  oc_compress : forall level shuffle w b room codec blocksize nthreads, Forall is_byte b ->
    let e := bl_compress z level shuffle w b room codec blocksize nthreads in
    lenN e <= room /\ Forall is_byte e /\ (e <> [] -> fmt e b) /\
    ((0 <= level <= 9)%Z -> 0 < lenN b -> lenN b <= limit -> lenN b + blosc_max_overhead <= room -> e <> []);
  oc_decompress : forall e b rest room nthreads, fmt e b -> Forall is_byte e -> lenN b <= room ->
    snd (bl_decompress z (memory e rest) room nthreads) = b /\
    fst (bl_decompress z (memory e rest) room nthreads) <= lenN e;
  oc_header : forall mem room nthreads, 16 <= fst (bl_decompress z mem room nthreads);
  oc_bounded : forall mem room nthreads, (forall i, is_byte (mem i)) ->
    lenN (snd (bl_decompress z mem room nthreads)) <= room /\
    Forall is_byte (snd (bl_decompress z mem room nthreads))
}.

(** The formats of all libraries. *)
Record formats := Formats {
  f_gzip : bool -> format;
  f_bzip2 : format;
  f_xz : format;
  f_lz4 : format;
  f_zstd : format;
  f_blosc : format
}.

(** Limits that depend on the version of the library. *)
Record limits := Limits { lim_zstd : N; lim_blosc : N; bz_need : N -> N }.

(** All libraries keep their promises. *)
Record libraries_ok (l : libraries) (f : formats) (m : limits) : Prop := {
  lo_gzip : match lib_gzip l with
            | inl z => zlib_contract z (f_gzip f)
            | inr d => deflate_contract d (f_gzip f)
            end;
  lo_bzip2 : bzip2_contract (lib_bzip2 l) (f_bzip2 f) (bz_need m);
  lo_xz : exists enc dec, xz_contract (z := lib_xz l) (f_xz f) enc dec;
  lo_lz4 : lz4_contract (lib_lz4 l) (f_lz4 f);
  lo_zstd : zstd_contract (lib_zstd l) (f_zstd f) (lim_zstd m);
  lo_blosc : blosc_contract (lib_blosc l) (f_blosc f) (lim_blosc m)
}.

(** Settings the libraries accept. *)
Definition level_ok (l : libraries) (c : codec_config) : Prop :=
  match c with
  | Cfg_raw | Cfg_lz4 _ | Cfg_zstd _ => True
  | Cfg_zlib lv _ => match lib_gzip l with inl _ => (-1 <= lv <= 9)%Z | inr _ => True end
  | Cfg_bzip2 lv => (1 <= lv <= 9)%Z
  | Cfg_xz lv | Cfg_blosc lv _ _ _ _ => (0 <= lv <= 9)%Z
  end.

(** Sizes of chunks, in bytes, that a compressor accepts. *)
Definition size_ok (l : libraries) (m : limits) (w : N) (c : codec_config) (n : N) : Prop :=
  match c with
  | Cfg_raw | Cfg_xz _ => True
  | Cfg_zlib lv f => match lib_gzip l with
                     | inl z => n < 2 ^ 32 /\ zl_bound z f lv n < 2 ^ 32
                     | inr _ => True
                     end
  | Cfg_bzip2 _ => n < 2 ^ 32 /\ bzip2_room w (n / w) < 2 ^ 32 /\ bz_need m n <= bzip2_room w (n / w)
  | Cfg_lz4 _ => n <= lz4_max_input
  | Cfg_zstd _ => n <= lim_zstd m
  | Cfg_blosc _ _ _ _ _ => n <= lim_blosc m /\ n + blosc_max_overhead < W64
  end.

(** Sizes of chunks, in bytes, that fit into the 32 bit counters of zlib and bzip2. *)
Definition counters_fit (l : libraries) (c : codec_config) (n : N) : Prop :=
  match c with
  | Cfg_zlib _ _ => match lib_gzip l with inl _ => n < 2 ^ 32 | inr _ => True end
  | Cfg_bzip2 _ => n < 2 ^ 32
  | _ => True
  end.
(** The same for reading, with the size [k] of the compressed chunk. *)
Definition readable_size (l : libraries) (c : codec_config) (n k : N) : Prop :=
  match c with
  | Cfg_zlib _ _ => match lib_gzip l with inl _ => n < 2 ^ 32 /\ k < 2 ^ 32 | inr _ => True end
  | _ => True
  end.

(** Two settings of the same compressor, e.g. of different level. *)
Definition same_kind (c c' : codec_config) : Prop :=
  match c, c' with
  | Cfg_raw, Cfg_raw | Cfg_zlib _ _, Cfg_zlib _ _ | Cfg_bzip2 _, Cfg_bzip2 _ | Cfg_lz4 _, Cfg_lz4 _
  | Cfg_xz _, Cfg_xz _ | Cfg_zstd _, Cfg_zstd _ | Cfg_blosc _ _ _ _ _, Cfg_blosc _ _ _ _ _ => True
  | _, _ => False
  end.
