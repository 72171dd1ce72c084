(** Model of include/z5/metadata.hxx and of the name tables and option
    (de)serialisation of include/z5/types/types.hxx.  All WITH_* compression flags
    are taken as defined. *)
From Coq Require Import ZArith String.
From Verif Require Import M_Base M_Double M_Json.
Import ListNotations.
Local Open Scope list_scope.
Local Open Scope N_scope.

(** enum Datatype, include/z5/types/types.hxx:29-34. *)
Inductive dtype :=
| DT_int8 | DT_int16 | DT_int32 | DT_int64
| DT_uint8 | DT_uint16 | DT_uint32 | DT_uint64
| DT_float32 | DT_float64
| DT_complex64 | DT_complex128 | DT_complex256.

(** enum Compressor, include/z5/types/types.hxx:79-99. *)
Inductive compressor := C_raw | C_blosc | C_zlib | C_bzip2 | C_lz4 | C_xz | C_zstd.

(** std::map<std::string, V>::find *)
Fixpoint sfind {V} (k : string) (l : list (string * V)) : option V :=
  match l with
  | [] => None
  | (k', v) :: r => if String.eqb k' k then Some v else sfind k r
  end.
(** std::map<std::string, V>::at: std::out_of_range, a std::logic_error. *)
Definition sat {V} (k : string) (l : list (string * V)) : outcome V :=
  match sfind k l with Some v => Ok v | None => Throw ELogic end.
(** std::map operator[] = v *)
Fixpoint sput {V} (k : string) (v : V) (l : list (string * V)) : list (string * V) :=
  match l with
  | [] => [(k, v)]
  | (k', v') :: r => if String.eqb k' k then (k', v) :: r else (k', v') :: sput k v r
  end.

(** The same for an enum key. *)
Definition eat (o : option string) : outcome string :=
  match o with Some v => Ok v | None => Throw ELogic end.

(** try { ... } catch(std::out_of_range) { throw std::runtime_error }:
    include/z5/metadata.hxx:146-150, 181-185, 319-323, 463-475.  Only map::at is
    inside these blocks besides json accesses. *)
Definition or_runtime {A} (x : outcome A) : outcome A :=
  match x with Throw ELogic => Throw ERuntime | _ => x end.

(** Datatypes::zarrToDtype, include/z5/types/types.hxx:40-46. *)
Definition zarr_to_dtype : list (string * dtype) := [
  ("|i1", DT_int8); ("<i2", DT_int16); ("<i4", DT_int32); ("<i8", DT_int64);
  ("|u1", DT_uint8); ("<u2", DT_uint16); ("<u4", DT_uint32); ("<u8", DT_uint64);
  ("<f4", DT_float32); ("<f8", DT_float64);
  ("<c8", DT_complex64); ("<c16", DT_complex128); ("<c32", DT_complex256)]%string.

(** Datatypes::dtypeToZarr, include/z5/types/types.hxx:48-55. *)
Definition dtype_to_zarr (d : dtype) : option string :=
  (match d with
  | DT_int8 => Some "|i1" | DT_int16 => Some "<i2" | DT_int32 => Some "<i4"
  | DT_int64 => Some "<i8" | DT_uint8 => Some "|u1" | DT_uint16 => Some "<u2"
  | DT_uint32 => Some "<u4" | DT_uint64 => Some "<u8" | DT_float32 => Some "<f4"
  | DT_float64 => Some "<f8" | DT_complex64 => Some "<c8"
  | DT_complex128 => Some "<c16" | DT_complex256 => Some "<c32"
  end)%string.

(** Datatypes::n5ToDtype, include/z5/types/types.hxx:57-62. *)
Definition n5_to_dtype : list (string * dtype) := [
  ("int8", DT_int8); ("int16", DT_int16); ("int32", DT_int32); ("int64", DT_int64);
  ("uint8", DT_uint8); ("uint16", DT_uint16); ("uint32", DT_uint32); ("uint64", DT_uint64);
  ("float32", DT_float32); ("float64", DT_float64)]%string.

(** Datatypes::dtypeToN5, include/z5/types/types.hxx:64-69. *)
Definition dtype_to_n5 (d : dtype) : option string :=
  (match d with
  | DT_int8 => Some "int8" | DT_int16 => Some "int16" | DT_int32 => Some "int32"
  | DT_int64 => Some "int64" | DT_uint8 => Some "uint8" | DT_uint16 => Some "uint16"
  | DT_uint32 => Some "uint32" | DT_uint64 => Some "uint64" | DT_float32 => Some "float32"
  | DT_float64 => Some "float64"
  | _ => None
  end)%string.

(** Compressors::stringToCompressor, include/z5/types/types.hxx:107-131. *)
Definition string_to_compressor : list (string * compressor) := [
  ("raw", C_raw); ("blosc", C_blosc); ("zlib", C_zlib); ("gzip", C_zlib);
  ("bzip2", C_bzip2); ("lz4", C_lz4); ("xz", C_xz); ("zstd", C_zstd)]%string.

(** Compressors::zarrToCompressor, include/z5/types/types.hxx:133-154. *)
Definition zarr_to_compressor : list (string * compressor) := [
  ("raw", C_raw); ("blosc", C_blosc); ("zlib", C_zlib); ("gzip", C_zlib);
  ("bz2", C_bzip2); ("lz4", C_lz4); ("zstd", C_zstd)]%string.

(** Compressors::compressorToZarr, include/z5/types/types.hxx:156-176. *)
Definition compressor_to_zarr (c : compressor) : option string :=
  (match c with
  | C_raw => Some "raw" | C_blosc => Some "blosc" | C_zlib => Some "zlib"
  | C_bzip2 => Some "bz2" | C_lz4 => Some "lz4" | C_zstd => Some "zstd"
  | C_xz => None
  end)%string.

(** Compressors::n5ToCompressor, include/z5/types/types.hxx:178-201. *)
Definition n5_to_compressor : list (string * compressor) := [
  ("raw", C_raw); ("gzip", C_zlib); ("bzip2", C_bzip2); ("xz", C_xz);
  ("lz4", C_lz4); ("blosc", C_blosc); ("zstd", C_zstd)]%string.

(** Compressors::compressorToN5, include/z5/types/types.hxx:203-226. *)
Definition compressor_to_n5 (c : compressor) : option string :=
  (match c with
  | C_raw => Some "raw" | C_zlib => Some "gzip" | C_bzip2 => Some "bzip2"
  | C_xz => Some "xz" | C_lz4 => Some "lz4" | C_blosc => Some "blosc"
  | C_zstd => Some "zstd"
  end)%string.

(** CompressionOptions, include/z5/types/types.hxx:233:
    std::map<std::string, std::variant<int, bool, std::string>>. *)
Inductive optval := OInt (z : Z) | OBool (b : bool) | OStr (s : string).
Definition options := list (string * optval).

(** std::get<int>(options.at(key)) etc.  Simplified: std::bad_variant_access is
    not distinguished from the std::out_of_range of at. *)
Definition opt_int (k : string) (o : options) : outcome Z :=
  let! v := sat k o in match v with OInt z => Ok z | _ => Throw ELogic end.
Definition opt_bool (k : string) (o : options) : outcome bool :=
  let! v := sat k o in match v with OBool b => Ok b | _ => Throw ELogic end.
Definition opt_str (k : string) (o : options) : outcome string :=
  let! v := sat k o in match v with OStr s => Ok s | _ => Throw ELogic end.

(** jOpts["key"].get<T>() on a const json. *)
Definition jidx_int (k : string) (j : json) : outcome Z :=
  let! v := jidx k j in jget_int v.
Definition jidx_str (k : string) (j : json) : outcome string :=
  let! v := jidx k j in jget_str v.
(** (j.find(key) == j.end()) ? d : j[key].get<int>() *)
Definition jfind_int (k : string) (d : Z) (j : json) : outcome Z :=
  match jfind k j with None => Ok d | Some v => jget_int v end.

(** readZarrCompressionOptionsFromJson, include/z5/types/types.hxx:235-265. *)
Definition read_zarr_options (c : compressor) (j : json) (o : options) : outcome options :=
  match c with
  | C_blosc =>
      let! cn := jidx_str "cname" j in
      let! cl := jidx_int "clevel" j in
      let! sh := jidx_int "shuffle" j in
      let! bs := jfind_int "blocksize" 0 j in
      Ok (sput "blocksize" (OInt bs) (sput "shuffle" (OInt sh)
            (sput "level" (OInt cl) (sput "codec" (OStr cn) o))))
  | C_zlib =>
      let! l := jidx_int "level" j in
      let! i := jidx_str "id" j in
      Ok (sput "useZlib" (OBool (String.eqb i "zlib")) (sput "level" (OInt l) o))
  | C_bzip2 => let! l := jidx_int "level" j in Ok (sput "level" (OInt l) o)
  | C_lz4 => let! l := jidx_int "acceleration" j in Ok (sput "level" (OInt l) o)
  | C_zstd => let! l := jidx_int "level" j in Ok (sput "level" (OInt l) o)
  | C_raw | C_xz => Ok o
  end.

(** writeZarrCompressionOptionsToJson, include/z5/types/types.hxx:268-306.
    Simplified: jOpts is a fresh value (its only caller, metadata.hxx:103). *)
Definition write_zarr_options (c : compressor) (o : options) : outcome json :=
  let! id := match c with
             | C_raw => Ok ""%string
             | _ => or_runtime (eat (compressor_to_zarr c))
             end in
  match c with
  | C_blosc =>
      let! cn := opt_str "codec" o in
      let! cl := opt_int "level" o in
      let! sh := opt_int "shuffle" o in
      let! bs := opt_int "blocksize" o in
      Ok (JObj [("id", JStr id); ("cname", JStr cn); ("clevel", JInt cl);
                ("shuffle", JInt sh); ("blocksize", JInt bs)])%string
  | C_zlib =>
      let! u := opt_bool "useZlib" o in
      let! l := opt_int "level" o in
      Ok (JObj [("id", JStr (if u then "zlib" else "gzip")); ("level", JInt l)])%string
  | C_bzip2 => let! l := opt_int "level" o in Ok (JObj [("id", JStr id); ("level", JInt l)])%string
  | C_lz4 => let! l := opt_int "level" o in Ok (JObj [("id", JStr id); ("acceleration", JInt l)])%string
  | C_zstd => let! l := opt_int "level" o in Ok (JObj [("id", JStr id); ("level", JInt l)])%string
  | C_raw => Ok JNull
  | C_xz => Ok (JObj [("id", JStr id)])%string
  end.

(** readN5CompressionOptionsFromJson, include/z5/types/types.hxx:309-344. *)
Definition read_n5_options (c : compressor) (j : json) (o : options) : outcome options :=
  match c with
  | C_zlib => let! l := jidx_int "level" j in
              Ok (sput "useZlib" (OBool false) (sput "level" (OInt l) o))
  | C_bzip2 => let! l := jidx_int "blockSize" j in Ok (sput "level" (OInt l) o)
  | C_xz => let! l := jidx_int "preset" j in Ok (sput "level" (OInt l) o)
  | C_lz4 => let! l := jidx_int "blockSize" j in Ok (sput "level" (OInt l) o)
  | C_blosc =>
      let! cn := jidx_str "cname" j in
      let! cl := jidx_int "clevel" j in
      let! sh := jidx_int "shuffle" j in
      let! bs := jfind_int "blocksize" 0 j in
      let! nt := jfind_int "nthreads" 1 j in
      Ok (sput "nthreads" (OInt nt) (sput "blocksize" (OInt bs) (sput "shuffle" (OInt sh)
            (sput "level" (OInt cl) (sput "codec" (OStr cn) o)))))
  | C_zstd => let! l := jidx_int "level" j in Ok (sput "level" (OInt l) o)
  | C_raw => Ok o
  end.

(** writeN5CompressionOptionsToJson, include/z5/types/types.hxx:347-385. *)
Definition write_n5_options (c : compressor) (o : options) : outcome json :=
  let! ty := or_runtime (eat (compressor_to_n5 c)) in
  match c with
  | C_zlib => let! l := opt_int "level" o in Ok (JObj [("type", JStr ty); ("level", JInt l)])%string
  | C_bzip2 => let! l := opt_int "level" o in Ok (JObj [("type", JStr ty); ("blockSize", JInt l)])%string
  | C_xz => let! l := opt_int "level" o in Ok (JObj [("type", JStr ty); ("preset", JInt l)])%string
  | C_lz4 => let! l := opt_int "level" o in Ok (JObj [("type", JStr ty); ("blockSize", JInt l)])%string
  | C_blosc =>
      let! cn := opt_str "codec" o in
      let! cl := opt_int "level" o in
      let! sh := opt_int "shuffle" o in
      let! bs := opt_int "blocksize" o in
      let! nt := opt_int "nthreads" o in
      Ok (JObj [("type", JStr ty); ("cname", JStr cn); ("clevel", JInt cl);
                ("shuffle", JInt sh); ("blocksize", JInt bs); ("nthreads", JInt nt)])%string
  | C_zstd => let! l := opt_int "level" o in Ok (JObj [("type", JStr ty); ("level", JInt l)])%string
  | C_raw => Ok (JObj [("type", JStr ty)])%string
  end.

(** if(options.find(key) == options.end()) options[key] = v *)
Definition default_opt (k : string) (v : optval) (o : options) : options :=
  match sfind k o with None => sput k v o | Some _ => o end.

(** defaultCompressionOptions, include/z5/types/types.hxx:388-426. *)
Definition default_options (c : compressor) (is_zarr : bool) (o : options) : options :=
  match c with
  | C_blosc =>
      default_opt "nthreads" (OInt 1) (default_opt "blocksize" (OInt 0)
        (default_opt "shuffle" (OInt 1) (default_opt "level" (OInt 5)
          (default_opt "codec" (OStr "lz4") o))))
  | C_zlib => default_opt "useZlib" (OBool is_zarr) (default_opt "level" (OInt 5) o)
  | C_bzip2 => default_opt "level" (OInt 5) o
  | C_lz4 => default_opt "level" (OInt 6) o
  | C_xz => default_opt "level" (OInt 6) o
  | C_zstd => default_opt "level" (OInt 3) o
  | C_raw => o
  end.

(** datatypeSize, include/z5/types/types.hxx:432-443. *)
Definition dtype_size (d : dtype) : N :=
  match d with
  | DT_int8 | DT_uint8 => 1
  | DT_int16 | DT_uint16 => 2
  | DT_int32 | DT_uint32 | DT_float32 => 4
  | DT_int64 | DT_uint64 | DT_float64 => 8
  | DT_complex64 => 8
  | DT_complex128 => 16
  | DT_complex256 => 32
  end.

(** bloscShuffleToString / bloscShuffleFromJson, include/z5/types/types.hxx:445-456. *)
Definition shuffle_name (s : Z) : string :=
  (if (s =? 0)%Z then "noshuffle" else if (s =? 2)%Z then "bitshuffle" else "shuffle")%string.
Definition shuffle_of_json (j : json) : outcome Z :=
  if jis_integer j then jget_int j
  else
    let! v := jget_str j in
    Ok (if String.eqb v "noshuffle" then 0 else if String.eqb v "bitshuffle" then 2 else 1)%Z.

(** The bytes codec, include/z5/types/types.hxx:465-468 and metadata.hxx:294-297. *)
Definition bytes_codec : json :=
  JObj [("name", JStr "bytes"); ("configuration", JObj [("endian", JStr "little")])]%string.

(** writeV3CodecsToJson, include/z5/types/types.hxx:459-507. *)
Definition write_v3_codecs (c : compressor) (o : options) (typesize : N) : outcome json :=
  match c with
  | C_raw => Ok (JArr [bytes_codec])
  | C_zlib =>
      let! l := opt_int "level" o in
      Ok (JArr [bytes_codec;
        JObj [("name", JStr "gzip"); ("configuration", JObj [("level", JInt l)])]])%string
  | C_zstd =>
      let! l := opt_int "level" o in
      Ok (JArr [bytes_codec;
        JObj [("name", JStr "zstd");
              ("configuration", JObj [("level", JInt l); ("checksum", JBool false)])]])%string
  | C_blosc =>
      let! cn := opt_str "codec" o in
      let! cl := opt_int "level" o in
      let! sh := opt_int "shuffle" o in
      let! bs := opt_int "blocksize" o in
      Ok (JArr [bytes_codec;
        JObj [("name", JStr "blosc");
              ("configuration",
                JObj [("cname", JStr cn); ("clevel", JInt cl); ("shuffle", JStr (shuffle_name sh));
                      ("typesize", JInt (Z.of_N typesize)); ("blocksize", JInt bs)])]])%string
  | C_bzip2 | C_lz4 | C_xz => Throw ERuntime
  end.

(** Body of the loop of readV3CodecsFromJson, include/z5/types/types.hxx:514-548. *)
Definition read_v3_codec (acc : compressor * options) (c : json) : outcome (compressor * options) :=
  let! nj := jat "name" c in
  let! name := jget_str nj in
  if String.eqb name "bytes" then Ok acc
  else
    let! cfg := if jcontains "configuration" c then jat "configuration" c else Ok (JObj []) in
    if String.eqb name "gzip" then
      let! l := jvalue jget_int "level" 5%Z cfg in
      Ok (C_zlib, sput "useZlib" (OBool false) (sput "level" (OInt l) (snd acc)))
    else if String.eqb name "zstd" then
      let! l := jvalue jget_int "level" 3%Z cfg in
      Ok (C_zstd, sput "level" (OInt l) (snd acc))
    else if String.eqb name "blosc" then
      let! cn := jvalue jget_str "cname" "lz4"%string cfg in
      let! cl := jvalue jget_int "clevel" 5%Z cfg in
      let! sh := if jcontains "shuffle" cfg
                 then let! s := jat "shuffle" cfg in shuffle_of_json s
                 else Ok 1%Z in
      let! bs := jvalue jget_int "blocksize" 0%Z cfg in
      Ok (C_blosc, sput "blocksize" (OInt bs) (sput "shuffle" (OInt sh)
                     (sput "level" (OInt cl) (sput "codec" (OStr cn) (snd acc)))))
    else Throw ERuntime.

(** readV3CodecsFromJson, include/z5/types/types.hxx:510-549. *)
Definition read_v3_codecs (j : json) (o : options) : outcome (compressor * options) :=
  foldM read_v3_codec (jelems j) (C_raw, o).

(** DatasetMetadata, include/z5/metadata.hxx:14-61, 380-396. *)
Record metadata := Metadata {
  md_zarr : bool;
  md_format : Z;
  md_dtype : dtype;
  md_shape : list N;
  md_chunks : list N;
  md_comp : compressor;
  md_opts : options;
  md_fill : dbl;
  md_delim : string;
  md_enc : string;
  md_shard : list N
}.

(** JSON form of the fill value, include/z5/metadata.hxx:111-117. *)
Definition fill_json (x : dbl) : json :=
  match x with
  | DNan => JStr "NaN"
  | DInf false => JStr "Infinity"
  | DInf true => JStr "-Infinity"
  | _ => JReal x
  end.

(** toJsonZarr, include/z5/metadata.hxx:101-123. *)
Definition to_json_v2 (m : metadata) : outcome json :=
  let! copts := write_zarr_options (md_comp m) (md_opts m) in
  let! dt := eat (dtype_to_zarr (md_dtype m)) in
  Ok (JObj [("compressor", copts); ("dtype", JStr dt); ("shape", jof_shape (md_shape m));
            ("chunks", jof_shape (md_chunks m)); ("fill_value", fill_json (md_fill m));
            ("filters", JNull); ("order", JStr "C"); ("zarr_format", JInt (md_format m));
            ("dimension_separator", JStr (md_delim m))])%string.

(** toJsonN5, include/z5/metadata.hxx:125-141. *)
Definition to_json_n5 (m : metadata) : outcome json :=
  let! dt := eat (dtype_to_n5 (md_dtype m)) in
  let! copts := write_n5_options (md_comp m) (md_opts m) in
  Ok (JObj [("dimensions", jof_shape (rev (md_shape m)));
            ("blockSize", jof_shape (rev (md_chunks m)));
            ("dataType", JStr dt); ("compression", copts)])%string.

(** The switch over integer data types, include/z5/metadata.hxx:274-281. *)
Definition fill_json_v3 (d : dtype) (x : dbl) : outcome json :=
  if dbl_is_nan x || dbl_is_inf x then Ok (fill_json x)
  else
    match d with
    | DT_int8 | DT_int16 | DT_int32 | DT_int64 =>
        let! z := dbl_to_int (- 2 ^ 63) (2 ^ 63 - 1) x in Ok (JInt z)
    | DT_uint8 | DT_uint16 | DT_uint32 | DT_uint64 =>
        let! z := dbl_to_int 0 (2 ^ 64 - 1) x in Ok (JUInt (Z.to_N z))
    | _ => Ok (JReal x)
    end.

(** toJsonV3, include/z5/metadata.hxx:252-312. *)
Definition to_json_v3 (m : metadata) : outcome json :=
  let! dt := eat (dtype_to_n5 (md_dtype m)) in
  let sharded := match md_shard m with [] => false | _ => true end in
  let! fv := fill_json_v3 (md_dtype m) (md_fill m) in
  let! inner := write_v3_codecs (md_comp m) (md_opts m) (dtype_size (md_dtype m)) in
  let codecs :=
    if sharded then
      JArr [JObj [("name", JStr "sharding_indexed");
                  ("configuration",
                    JObj [("chunk_shape", jof_shape (md_chunks m)); ("codecs", inner);
                          ("index_codecs", JArr [bytes_codec; JObj [("name", JStr "crc32c")]]);
                          ("index_location", JStr "end")])]]%string
    else inner in
  Ok (JObj [("zarr_format", JInt 3); ("node_type", JStr "array"); ("data_type", JStr dt);
            ("shape", jof_shape (md_shape m));
            ("chunk_grid",
              JObj [("name", JStr "regular");
                    ("configuration",
                      JObj [("chunk_shape", jof_shape (if sharded then md_shard m else md_chunks m))])]);
            ("chunk_key_encoding",
              JObj [("name", JStr (md_enc m));
                    ("configuration", JObj [("separator", JStr (md_delim m))])]);
            ("fill_value", fv); ("codecs", codecs); ("attributes", JObj [])])%string.

(** toJson, include/z5/metadata.hxx:70-78. *)
Definition to_json (m : metadata) : outcome json :=
  if md_zarr m && (md_format m =? 3)%Z then to_json_v3 m
  else if md_zarr m then to_json_v2 m
  else to_json_n5 m.

(** The fill value read back, include/z5/metadata.hxx:154-169 (null is NaN) and
    340-355 (null is 0). *)
Definition fill_of_json (null : dbl) (j : json) : outcome dbl :=
  match j with
  | JStr s =>
      if String.eqb s "NaN" then Ok DNan
      else if String.eqb s "Infinity" then Ok (DInf false)
      else if String.eqb s "-Infinity" then Ok (DInf true)
      else Throw ERuntime
  | JNull => Ok null
  | _ => jget_double j
  end.

(** checkJson, include/z5/metadata.hxx:414-443. *)
Definition check_json (fmt : Z) (j : json) : outcome unit :=
  let bad_order := match jfind "order" j with Some v => negb (jeq_str v "C") | None => false end in
  if bad_order then Throw ERuntime
  else
    let bad_format := match jfind "zarr_format" j with Some v => negb (jeq_int v fmt) | None => false end in
    if bad_format then Throw ERuntime
    else
      let bad_filters := match jfind "filters" j with
                         | Some v => negb (jis_null v) && (0 <? jsize v)
                         | None => false
                         end in
      if bad_filters then Throw ERuntime else Ok tt.

(** fromJsonZarr, include/z5/metadata.hxx:144-188, for a default-constructed
    object (include/z5/metadata.hxx:65; the only use, readMetadata). *)
Definition from_json_v2 (j : json) : outcome metadata :=
  let! _ := check_json 2 j in
  let! dj := jidx "dtype" j in
  let! dn := jget_str dj in
  let! dt := or_runtime (sat dn zarr_to_dtype) in
  let! sj := jidx "shape" j in
  let! sh := jshape sj in
  let! cj := jidx "chunks" j in
  let! ch := jshape cj in
  let! fj := jidx "fill_value" j in
  let! fv := fill_of_json DNan fj in
  let! delim := match jfind "dimension_separator" j with
                | Some v => jget_str v
                | None => Ok "."%string
                end in
  let! copts := jidx "compressor" j in
  let! id := if jis_null copts then Ok "raw"%string else jidx_str "id" copts in
  let! comp := or_runtime (sat id zarr_to_compressor) in
  let! o := read_zarr_options comp copts [] in
  Ok (Metadata true 2 dt sh ch comp o fv delim "default" []).

(** fromJsonN5, include/z5/metadata.hxx:191-249. *)
Definition from_json_n5 (j : json) : outcome metadata :=
  let! dj := jidx "dataType" j in
  let! dn := jget_str dj in
  let! dt := sat dn n5_to_dtype in
  let! sj := jidx "dimensions" j in
  let! sh := jshape_rev sj in
  let! cj := jidx "blockSize" j in
  let! ch := jshape_rev cj in
  let! co :=
    match jfind "compression" j with
    | Some jo =>
        let! ty := match jfind "type" jo with
                   | Some v => jget_str v
                   | None => Throw ERuntime
                   end in
        let! comp := or_runtime (sat ty n5_to_compressor) in
        let! o := read_n5_options comp jo [] in
        Ok (comp, o)
    | None =>
        let! ty := match jfind "compressionType" j with
                   | Some v => jget_str v
                   | None => Throw ERuntime
                   end in
        let! comp := or_runtime (sat ty n5_to_compressor) in
        Ok (comp, [("level", OInt 5); ("useZlib", OBool false)]%string)
    end in
  Ok (Metadata false 2 dt sh ch (fst co) (snd co) (DZero false) "" "default" []).

(** The search for the sharding codec, include/z5/metadata.hxx:357-375: the
    configuration of the first sharding_indexed codec. *)
Fixpoint find_sharding (l : list json) : outcome (option json) :=
  match l with
  | [] => Ok None
  | c :: r =>
      let! n := jat "name" c in
      if jeq_str n "sharding_indexed" then
        let! cfg := jat "configuration" c in Ok (Some cfg)
      else find_sharding r
  end.

(** fromJsonV3, include/z5/metadata.hxx:315-378. *)
Definition from_json_v3 (j : json) : outcome metadata :=
  let! nt := jat "node_type" j in
  if negb (jeq_str nt "array") then Throw ERuntime
  else
    let! dj := jat "data_type" j in
    let! dn := jget_str dj in
    let! dt := or_runtime (sat dn n5_to_dtype) in
    let! sj := jat "shape" j in
    let! sh := jshape sj in
    let! g1 := jat "chunk_grid" j in
    let! g2 := jat "configuration" g1 in
    let! g3 := jat "chunk_shape" g2 in
    let! outer := jshape g3 in
    let! cke := jat "chunk_key_encoding" j in
    let! ej := jat "name" cke in
    let! enc := jget_str ej in
    let! delim :=
      match jfind "configuration" cke with
      | Some cfg =>
          match jfind "separator" cfg with
          | Some s => jget_str s
          | None => Ok (if String.eqb enc "v2" then "." else "/")%string
          end
      | None => Ok (if String.eqb enc "v2" then "." else "/")%string
      end in
    let! fj := jat "fill_value" j in
    let! fv := fill_of_json (DZero false) fj in
    let! codecs := jat "codecs" j in
    let! sd := find_sharding (jelems codecs) in
    let! parts :=
      match sd with
      | Some cfg =>
          let! ij := jat "chunk_shape" cfg in
          let! inner := jshape ij in
          let! ic := jat "codecs" cfg in
          Ok (inner, outer, ic)
      | None => Ok (outer, [], codecs)
      end in
    let '(ch, shard, ic) := parts in
    let! co := read_v3_codecs ic [] in
    Ok (Metadata true 3 dt sh ch (fst co) (snd co) fv delim enc shard).

(** checkShapes, include/z5/metadata.hxx:406-410. *)
Definition check_shapes (m : metadata) : outcome metadata :=
  if lenN (md_shape m) =? lenN (md_chunks m) then Ok m else Throw ERuntime.

(** fromJson, include/z5/metadata.hxx:82-98, on a default-constructed object. *)
Definition from_json (j : json) (is_zarr : bool) : outcome metadata :=
  let! m :=
    if is_zarr then
      match jfind "zarr_format" j with
      | Some v =>
          let! f := jget_int v in
          if (f =? 3)%Z then from_json_v3 j else from_json_v2 j
      | None => from_json_v2 j
      end
    else from_json_n5 j in
  check_shapes m.

(** The loop over the shard shape, include/z5/metadata.hxx:491-495 (the vectors
    have equal size here). *)
Fixpoint check_shard (sd ch : list N) : outcome unit :=
  match sd, ch with
  | s :: sr, c :: cr =>
      if s <? c then Throw ERuntime
      else if c =? 0 then UB
      else if negb (s mod c =? 0) then Throw ERuntime
      else check_shard sr cr
  | _, _ => Ok tt
  end.

(** createDatasetMetadata, include/z5/metadata.hxx:447-503. *)
Definition create_metadata (dtype_name : string) (sh ch : list N) (as_zarr : bool)
    (comp_name : string) (o : options) (fill : dbl) (delim : string) (fmt : Z)
    (enc : string) (shard : list N) : outcome metadata :=
  let! dt := or_runtime (sat dtype_name n5_to_dtype) in
  let! comp := or_runtime (sat comp_name string_to_compressor) in
  let o' := default_options comp as_zarr o in
  let! _ :=
    match shard with
    | [] => Ok tt
    | _ =>
        if negb (as_zarr && (fmt =? 3)%Z) then Throw ERuntime
        else if negb (lenN shard =? lenN ch) then Throw ERuntime
        else check_shard shard ch
    end in
  check_shapes (Metadata as_zarr fmt dt sh ch comp o' fill delim enc shard).

(** What the compressor object of a dataset is configured with: init_compressor,
    include/z5/dataset.hxx:187-216, and the init functions
    compression/blosc_compressor.hxx:79-93, zlib_compressor.hxx:228-231,
    bzip2_compressor.hxx:112, lz4_compressor.hxx:71, xz_compressor.hxx:143,
    zstd_compressor.hxx:65. *)
Inductive codec_config :=
| Cfg_raw
| Cfg_blosc (level shuffle : Z) (codec : string) (blocksize nthreads : Z)
| Cfg_zlib (level : Z) (zlib_encoding : bool)
| Cfg_bzip2 (level : Z)
| Cfg_lz4 (level : Z)
| Cfg_xz (level : Z)
| Cfg_zstd (level : Z).

Definition init_compressor (c : compressor) (o : options) : outcome codec_config :=
  match c with
  | C_raw => Ok Cfg_raw
  | C_blosc =>
      let! l := opt_int "level" o in
      let! s := opt_int "shuffle" o in
      let! cn := opt_str "codec" o in
      let! bs := opt_int "blocksize" o in
      let! nt := match sfind "nthreads" o with
                 | None => Ok 1%Z
                 | Some (OInt z) => Ok z
                 | Some _ => Throw ELogic
                 end in
      Ok (Cfg_blosc l s cn bs nt)
  | C_zlib =>
      let! l := opt_int "level" o in
      let! u := opt_bool "useZlib" o in
      Ok (Cfg_zlib l u)
  | C_bzip2 => let! l := opt_int "level" o in Ok (Cfg_bzip2 l)
  | C_lz4 => let! l := opt_int "level" o in Ok (Cfg_lz4 l)
  | C_xz => let! l := opt_int "level" o in Ok (Cfg_xz l)
  | C_zstd => let! l := opt_int "level" o in Ok (Cfg_zstd l)
  end.

(** Range of the integer data types. *)
Definition dtype_range (d : dtype) : option (Z * Z) :=
  match d with
  | DT_int8 => Some (- 2 ^ 7, 2 ^ 7 - 1)%Z
  | DT_int16 => Some (- 2 ^ 15, 2 ^ 15 - 1)%Z
  | DT_int32 => Some (- 2 ^ 31, 2 ^ 31 - 1)%Z
  | DT_int64 => Some (- 2 ^ 63, 2 ^ 63 - 1)%Z
  | DT_uint8 => Some (0, 2 ^ 8 - 1)%Z
  | DT_uint16 => Some (0, 2 ^ 16 - 1)%Z
  | DT_uint32 => Some (0, 2 ^ 32 - 1)%Z
  | DT_uint64 => Some (0, 2 ^ 64 - 1)%Z
  | _ => None
  end.

(** The fill value of a dataset: fillValue_(static_cast<T>(metadata.fillValue)),
    include/z5/dataset.hxx:176.  Simplified: for floating point T the double
    itself (the narrowing to float is a function of it). *)
Inductive fill_elem := FInt (z : Z) | FReal (x : dbl).
Definition element_fill (d : dtype) (x : dbl) : outcome fill_elem :=
  match dtype_range d with
  | Some (lo, hi) => let! z := dbl_to_int lo hi x in Ok (FInt z)
  | None => Ok (FReal x)
  end.
