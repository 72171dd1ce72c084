(** The published metadata documents (.zarray of Zarr v2, zarr.json of Zarr v3 with
    the sharding codec, attributes.json of N5), written down as a reader.  Arrays of
    integers and floating point numbers; a document with anything else (other codecs,
    grids, orders, complex or structured types) is not understood ([None]).  Nothing
    here refers to the functions of the model. *)
From Coq Require Import ZArith String Ascii.
From Verif Require Import M_Base M_Double M_Json M_Fs S_Layout.
Import ListNotations.
Local Open Scope list_scope.
Local Open Scope N_scope.

Inductive kind := Signed | Unsigned | Real.
(** [el_big]: the bytes of an element are in the other order than the format's usual. *)
Record element := Element { el_kind : kind; el_width : N; el_big : bool }.
Inductive stream := NoStream | Gzip | Zlib | Bzip2 | Xz | Lz4 | Blosc | Zstd.
(** [NoFill]: elements of missing chunks are undefined. *)
Inductive fill := NoFill | WholeFill (z : Z) | RealFill (x : dbl).

Record document := Document {
  do_layout : layout;
  do_shape : shape;
  do_chunks : shape;
  do_elem : element;
  do_fill : fill;
  do_stream : stream
}.

(** * Parts of documents *)

Fixpoint lookup {A} (k : string) (l : list (string * A)) : option A :=
  match l with
  | [] => None
  | (k', v) :: r => if String.eqb k' k then Some v else lookup k r
  end.
Definition member (k : string) (j : json) : option json :=
  match j with JObj l => lookup k l | _ => None end.
Definition text (o : option json) : option string :=
  match o with Some (JStr s) => Some s | _ => None end.
Definition integer (o : option json) : option Z :=
  match o with Some (JInt z) => Some z | Some (JUInt n) => Some (Z.of_N n) | _ => None end.

Fixpoint naturals (l : list json) : option (list N) :=
  match l with
  | [] => Some []
  | x :: r =>
      match integer (Some x), naturals r with
      | Some z, Some ns => if ((0 <=? z) && (z <? 2 ^ 64))%Z then Some (Z.to_N z :: ns) else None
      | _, _ => None
      end
  end.
Definition extents (o : option json) : option shape :=
  match o with Some (JArr l) => naturals l | _ => None end.

(** The double of a small integer, and the integer of a double. *)
Fixpoint odd_part (p : positive) : positive := match p with xO q => odd_part q | _ => p end.
Fixpoint twos (p : positive) : Z := match p with xO q => 1 + twos q | _ => 0 end%Z.
Definition real_of (z : Z) : dbl :=
  match z with
  | Z0 => DZero false
  | Zpos p => DFin false (odd_part p) (twos p)
  | Zneg p => DFin true (odd_part p) (twos p)
  end.
Definition whole_of (x : dbl) : option Z :=
  match x with
  | DZero _ => Some 0%Z
  | DFin s m e => if (0 <=? e)%Z then Some (if s then - (Zpos m * 2 ^ e) else Zpos m * 2 ^ e)%Z else None
  | _ => None
  end.

Definition fill_number (k : kind) (o : option json) : option fill :=
  match k, o with
  | Real, Some (JReal x) => Some (RealFill x)
  | Real, Some (JStr s) =>
      if String.eqb s "NaN" then Some (RealFill DNan)
      else if String.eqb s "Infinity" then Some (RealFill (DInf false))
      else if String.eqb s "-Infinity" then Some (RealFill (DInf true))
      else None
  | Real, _ =>
      match integer o with
      | Some z => if (Z.abs z <? 2 ^ 53)%Z then Some (RealFill (real_of z)) else None
      | None => None
      end
  | _, Some (JReal x) => match whole_of x with Some z => Some (WholeFill z) | None => None end
  | _, _ => match integer o with Some z => Some (WholeFill z) | None => None end
  end.

(** The names of element types of Zarr v3 and N5. *)
Definition type_name (s : string) : option element :=
  lookup s [("int8", Element Signed 1 false); ("int16", Element Signed 2 false);
            ("int32", Element Signed 4 false); ("int64", Element Signed 8 false);
            ("uint8", Element Unsigned 1 false); ("uint16", Element Unsigned 2 false);
            ("uint32", Element Unsigned 4 false); ("uint64", Element Unsigned 8 false);
            ("float32", Element Real 4 false); ("float64", Element Real 8 false)]%string.
(** The array protocol type strings of Zarr v2: byte order, kind, size. *)
Definition type_string (s : string) : option element :=
  match s with
  | String o (String k r) =>
      let kind := if Ascii.eqb k "i" then Some Signed
                  else if Ascii.eqb k "u" then Some Unsigned
                  else if Ascii.eqb k "f" then Some Real else None in
      let width := lookup r [("1", 1); ("2", 2); ("4", 4); ("8", 8)]%string in
      match kind, width with
      | Some k', Some w =>
          if Ascii.eqb o "<" then Some (Element k' w false)
          else if Ascii.eqb o ">" then Some (Element k' w (negb (w =? 1)))
          else if Ascii.eqb o "|" && (w =? 1) then Some (Element k' w false)
          else None
      | _, _ => None
      end
  | _ => None
  end.

Definition separator (dflt : string) (o : option json) : option string :=
  match o with
  | None => Some dflt
  | Some (JStr s) => if String.eqb s "." || String.eqb s "/" then Some s else None
  | Some _ => None
  end.

Definition same_rank (a b : shape) : bool := Nat.eqb (List.length a) (List.length b).

(** * Zarr v2 *)

Definition v2_stream (o : option json) : option stream :=
  match o with
  | Some JNull => Some NoStream
  | Some j => match text (member "id" j) with
              | Some id => lookup id [("zlib", Zlib); ("gzip", Gzip); ("bz2", Bzip2); ("lzma", Xz);
                                      ("lz4", Lz4); ("blosc", Blosc); ("zstd", Zstd)]%string
              | None => None
              end
  | None => None
  end.

Definition no_filters (o : option json) : bool :=
  match o with None | Some JNull | Some (JArr []) => true | _ => false end.

Definition read_v2 (j : json) : option document :=
  match integer (member "zarr_format" j), text (member "order" j), no_filters (member "filters" j),
        extents (member "shape" j), extents (member "chunks" j), text (member "dtype" j),
        separator "." (member "dimension_separator" j), v2_stream (member "compressor" j) with
  | Some fmt, Some order, true, Some sh, Some ch, Some dt, Some sep, Some st =>
      match type_string dt with
      | Some e =>
          let f := match member "fill_value" j with
                   | Some JNull => Some NoFill
                   | v => fill_number (el_kind e) v
                   end in
          match f with
          | Some f => if (fmt =? 2)%Z && String.eqb order "C" && same_rank sh ch
                      then Some (Document (Zarr2 sep) sh ch e f st) else None
          | None => None
          end
      | None => None
      end
  | _, _, _, _, _, _, _, _ => None
  end%string.

(** * Zarr v3 *)

(** The byte order of a "bytes" codec; it may be left out for single bytes. *)
Definition bytes_order (w : N) (c : json) : option bool :=
  match text (member "name" c) with
  | Some n =>
      if String.eqb n "bytes" then
        match member "configuration" c with
        | Some cfg =>
            match text (member "endian" cfg) with
            | Some e => if String.eqb e "little" then Some false
                        else if String.eqb e "big" then Some (negb (w =? 1)%N) else None
            | None => if (w =? 1)%N then Some false else None
            end
        | None => if (w =? 1)%N then Some false else None
        end
      else None
  | None => None
  end%string.
Definition v3_stream (c : json) : option stream :=
  match text (member "name" c) with
  | Some n => lookup n [("gzip", Gzip); ("zstd", Zstd); ("blosc", Blosc)]%string
  | None => None
  end.
(** The chain of codecs of chunks: bytes, and at most one compression. *)
Definition v3_chain (w : N) (o : option json) : option (bool * stream) :=
  match o with
  | Some (JArr [b]) => match bytes_order w b with Some big => Some (big, NoStream) | None => None end
  | Some (JArr [b; c]) =>
      match bytes_order w b, v3_stream c with Some big, Some s => Some (big, s) | _, _ => None end
  | _ => None
  end.

(** The index of shards: little endian with a checksum, at the end. *)
Definition plain_index (cfg : json) : bool :=
  match member "index_codecs" cfg with
  | Some (JArr [b; c]) =>
      match bytes_order 8 b, text (member "name" c) with
      | Some false, Some n => String.eqb n "crc32c"
      | _, _ => false
      end
  | _ => false
  end &&
  match member "index_location" cfg with
  | None => true
  | Some (JStr s) => String.eqb s "end"
  | Some _ => false
  end%string.

(** The configuration of the sharding codec. *)
Definition sharding (o : option json) : option json :=
  match o with
  | Some (JArr [c]) =>
      match text (member "name" c) with
      | Some n => if String.eqb n "sharding_indexed" then member "configuration" c else None
      | None => None
      end
  | _ => None
  end%string.

Definition key_encoding (o : option json) : option (bool * string) :=
  match o with
  | Some j =>
      let sep := match member "configuration" j with Some cfg => member "separator" cfg | None => None end in
      match text (member "name" j) with
      | Some n =>
          if String.eqb n "default" then
            match separator "/" sep with Some s => Some (true, s) | None => None end
          else if String.eqb n "v2" then
            match separator "." sep with Some s => Some (false, s) | None => None end
          else None
      | None => None
      end
  | None => None
  end%string.

Definition regular_grid (o : option json) : option shape :=
  match o with
  | Some j =>
      match text (member "name" j), member "configuration" j with
      | Some n, Some cfg => if String.eqb n "regular" then extents (member "chunk_shape" cfg) else None
      | _, _ => None
      end
  | None => None
  end%string.

Definition no_transformers (o : option json) : bool :=
  match o with None | Some (JArr []) => true | _ => false end.

Definition read_v3 (j : json) : option document :=
  match integer (member "zarr_format" j), text (member "node_type" j), text (member "data_type" j),
        extents (member "shape" j), regular_grid (member "chunk_grid" j),
        key_encoding (member "chunk_key_encoding" j), no_transformers (member "storage_transformers" j) with
  | Some fmt, Some nt, Some dt, Some sh, Some outer, Some (prefix, sep), true =>
      match type_name dt with
      | Some e =>
          match fill_number (el_kind e) (member "fill_value" j) with
          | Some f =>
              if (fmt =? 3)%Z && String.eqb nt "array" && same_rank sh outer then
                match sharding (member "codecs" j) with
                | Some cfg =>
                    match extents (member "chunk_shape" cfg), v3_chain (el_width e) (member "codecs" cfg) with
                    | Some inner, Some (big, st) =>
                        if same_rank sh inner && plain_index cfg
                        then Some (Document (Zarr3Sharded prefix sep outer) sh inner
                                            (Element (el_kind e) (el_width e) big) f st)
                        else None
                    | _, _ => None
                    end
                | None =>
                    match v3_chain (el_width e) (member "codecs" j) with
                    | Some (big, st) =>
                        Some (Document (Zarr3 prefix sep) sh outer (Element (el_kind e) (el_width e) big) f st)
                    | None => None
                    end
                end
              else None
          | None => None
          end
      | None => None
      end
  | _, _, _, _, _, _, _ => None
  end%string.

(** * N5 *)

Definition n5_stream (j : json) : option stream :=
  match member "compression" j with
  | Some c =>
      match text (member "type" c) with
      | Some n =>
          if String.eqb n "gzip" then
            match member "useZlib" c with
            | None | Some (JBool false) => Some Gzip
            | Some (JBool true) => Some Zlib
            | Some _ => None
            end
          else lookup n [("raw", NoStream); ("bzip2", Bzip2); ("xz", Xz); ("lz4", Lz4);
                         ("blosc", Blosc); ("zstd", Zstd)]%string
      | None => None
      end
  | None =>      (* versions before 2.0 *)
      match text (member "compressionType" j) with
      | Some n => lookup n [("raw", NoStream); ("gzip", Gzip); ("bzip2", Bzip2); ("xz", Xz)]%string
      | None => None
      end
  end%string.

(** Elements of missing blocks are 0. *)
Definition read_n5 (j : json) : option document :=
  match extents (member "dimensions" j), extents (member "blockSize" j), text (member "dataType" j), n5_stream j with
  | Some sh, Some ch, Some dt, Some st =>
      match type_name dt with
      | Some e =>
          if same_rank sh ch
          then Some (Document N5 (rev sh) (rev ch) e
                       (match el_kind e with Real => RealFill (DZero false) | _ => WholeFill 0 end) st)
          else None
      | None => None
      end
  | _, _, _, _ => None
  end%string.

(** The array in the directory [p]. *)
Definition read_node (t : fsys) (p : path) : option document :=
  match t (p ++ ["zarr.json"%string]), t (p ++ [".zarray"%string]), t (p ++ ["attributes.json"%string]) with
  | Some (NDoc j), None, None => read_v3 j
  | None, Some (NDoc j), None => read_v2 j
  | None, None, Some (NDoc j) => read_n5 j
  | _, _, _ => None
  end.

(** The settings of the compression in a zarr.json.  The numbers of blosc are those of
    the codec's own specification; [typesize] is the number of bytes of an element. *)
Inductive v3_setting :=
| Plain
| GzipLevel (level : Z)
| ZstdLevel (level : Z) (checksum : bool)
| BloscSetting (cname : string) (clevel : Z) (shuffle : string) (typesize blocksize : Z).
Definition v3_codec_setting (c : json) : option v3_setting :=
  match text (member "name" c), member "configuration" c with
  | Some n, Some cfg =>
      if String.eqb n "gzip" then
        match integer (member "level" cfg) with Some l => Some (GzipLevel l) | None => None end
      else if String.eqb n "zstd" then
        match integer (member "level" cfg), member "checksum" cfg with
        | Some l, Some (JBool b) => Some (ZstdLevel l b)
        | _, _ => None
        end
      else if String.eqb n "blosc" then
        match text (member "cname" cfg), integer (member "clevel" cfg), text (member "shuffle" cfg),
              integer (member "typesize" cfg), integer (member "blocksize" cfg) with
        | Some cn, Some l, Some s, Some w, Some b => Some (BloscSetting cn l s w b)
        | _, _, _, _, _ => None
        end
      else None
  | _, _ => None
  end%string.
Definition v3_settings (j : json) : option v3_setting :=
  match (match sharding (member "codecs" j) with Some cfg => member "codecs" cfg | None => member "codecs" j end) with
  | Some (JArr [_]) => Some Plain
  | Some (JArr [_; c]) => v3_codec_setting c
  | _ => None
  end%string.
