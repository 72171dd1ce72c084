(** When a dataset object is the array that a document (S_Document) describes. *)
From Coq Require Import ZArith String.
From Verif Require Import M_Base M_Double M_Json M_Key M_Format M_Dataset M_Metadata M_Fs M_Container S_Array S_Interop S_Container S_Tree S_Layout S_Document.
Import ListNotations.
Local Open Scope list_scope.
Local Open Scope N_scope.

Definition element_of (d : dtype) : option element :=
  match d with
  | DT_int8 => Some (Element Signed 1 false) | DT_int16 => Some (Element Signed 2 false)
  | DT_int32 => Some (Element Signed 4 false) | DT_int64 => Some (Element Signed 8 false)
  | DT_uint8 => Some (Element Unsigned 1 false) | DT_uint16 => Some (Element Unsigned 2 false)
  | DT_uint32 => Some (Element Unsigned 4 false) | DT_uint64 => Some (Element Unsigned 8 false)
  | DT_float32 => Some (Element Real 4 false) | DT_float64 => Some (Element Real 8 false)
  | _ => None
  end.

Definition stream_of (c : codec_config) : stream :=
  match c with
  | Cfg_raw => NoStream
  | Cfg_blosc _ _ _ _ _ => Blosc
  | Cfg_zlib _ true => Zlib
  | Cfg_zlib _ false => Gzip
  | Cfg_bzip2 _ => Bzip2
  | Cfg_lz4 _ => Lz4
  | Cfg_xz _ => Xz
  | Cfg_zstd _ => Zstd
  end.

(** Any fill value will do if none is given. *)
Definition fill_fits (f : fill) (e : fill_elem) : Prop :=
  match f, e with
  | NoFill, _ => True
  | WholeFill z, FInt z' => z' = z
  | RealFill x, FReal x' => x' = x
  | _, _ => False
  end.

Record fits (a : document) (o : opened) : Prop := {
  fi_shape : op_shape o = do_shape a;
  fi_chunks : op_chunks o = do_chunks a;
  fi_layout : do_layout a = match op_shard o with [] => layout_of (op_keys o) | s => sharded_layout (op_keys o) s end;
  fi_elem : element_of (op_dtype o) = Some (do_elem a);
  fi_fill : fill_fits (do_fill a) (op_fill o);
  fi_stream : stream_of (op_codec o) = do_stream a
}.

(** Fill values that a double can hold. *)
Definition small_fill (f : fill) : Prop := match f with WholeFill z => (Z.abs z < 2 ^ 53)%Z | _ => True end.

(** Arguments of createDataset that the format has a place for: the separators and
    key encodings of zarr, extents of 64 bits, a whole fill value for integers (zarr v2
    records the double), codec settings the format can record. *)
Record portable (z : bool) (fmt : Z) (delim enc : string) (sh ch shard : shape) (x : dbl) (o : opened) : Prop := {
  po_format : z = true -> fmt = 2%Z \/ fmt = 3%Z;
  po_delim : z = true -> delim = "."%string \/ delim = "/"%string;
  po_enc : z = true -> fmt = 3%Z -> enc = "default"%string \/ enc = "v2"%string;
  po_extents : Forall (fun n => n < 2 ^ 64) (sh ++ ch ++ shard);
  po_whole : z = true -> fmt = 2%Z -> forall n, op_fill o = FInt n -> whole_of x <> None;
  po_codec : recordable_codec z fmt (op_codec o);
  po_fill : recordable_fill z (op_dtype o) (op_fill o)
}.

(** What a reader makes of a document, with its decompression [D] and the bytes [V] of
    fill values. *)
Definition seen (D : stream -> bytes -> N -> option bytes) (V : element -> fill -> list N) (a : document) : described :=
  Described (do_layout a) (do_shape a) (do_chunks a) (el_width (do_elem a)) (V (do_elem a) (do_fill a)) (D (do_stream a)).

(** The reader and the library mean the same by element types, fill values and the
    compression of [o]. *)
Record agree (D : stream -> bytes -> N -> option bytes) (V : element -> fill -> list N) (M : meaning) (o : opened) : Prop := {
  ag_width : forall e, element_of (op_dtype o) = Some e -> el_width e = t_width (m_elem M (op_dtype o));
  ag_fill : forall e f, element_of (op_dtype o) = Some e -> f <> NoFill -> fill_fits f (op_fill o) ->
    V e f = m_fill M (op_dtype o) (op_fill o);
  ag_stream : undoes (prod (op_chunks o) * t_width (m_elem M (op_dtype o))) (D (stream_of (op_codec o))) (m_codec M (op_codec o))
}.

(** ** Ordinary documents *)

(** Numbers and words of an object, that may be left out ([_if]). *)
Definition number (k : string) (j : json) : Prop := integer (member k j) <> None.
Definition number_if (k : string) (j : json) : Prop := member k j = None \/ number k j.
Definition word (k : string) (j : json) : Prop := text (member k j) <> None.
Definition word_if (k : string) (j : json) : Prop := member k j = None \/ word k j.

(** The usual parameters of the compressions; the library has no xz for zarr. *)
Definition v2_parameters (s : stream) (c : json) : Prop :=
  match s with
  | NoStream => True
  | Zlib | Gzip | Bzip2 | Zstd => number "level" c
  | Lz4 => number "acceleration" c
  | Blosc => word "cname" c /\ number "clevel" c /\ number "shuffle" c /\ number_if "blocksize" c
  | Xz => False
  end.
Definition n5_parameters (s : stream) (c : json) : Prop :=
  match s with
  | NoStream => True
  | Zlib | Gzip | Zstd => number "level" c
  | Bzip2 | Lz4 => number "blockSize" c
  | Xz => number "preset" c
  | Blosc => word "cname" c /\ number "clevel" c /\ number "shuffle" c /\ number_if "blocksize" c /\ number_if "nthreads" c
  end.
Definition v3_parameters (s : stream) (c : json) : Prop :=
  match member "configuration" c with
  | None => True
  | Some (JObj l) =>
      match s with
      | Blosc => word_if "cname" (JObj l) /\ number_if "clevel" (JObj l) /\ word_if "shuffle" (JObj l) /\
                 number_if "blocksize" (JObj l)
      | _ => number_if "level" (JObj l)
      end
  | Some _ => False
  end.
Definition chain_parameters (s : stream) (o : option json) : Prop :=
  match o with Some (JArr [_; c]) => v3_parameters s c | _ => True end.
Definition parameters (j : json) (a : document) : Prop :=
  match do_layout a with
  | Zarr2 _ => match member "compressor" j with Some c => v2_parameters (do_stream a) c | None => True end
  | Zarr3 _ _ => chain_parameters (do_stream a) (member "codecs" j)
  | Zarr3Sharded _ _ _ =>
      match sharding (member "codecs" j) with
      | Some cfg => chain_parameters (do_stream a) (member "codecs" cfg)
      | None => True
      end
  | N5 => match member "compression" j with Some c => n5_parameters (do_stream a) c | None => True end
  end.

(** Fill values that are elements. *)
Definition fill_in_range (e : element) (f : fill) : Prop :=
  match f with
  | NoFill => el_kind e = Real
  | WholeFill z =>
      (match el_kind e with
       | Unsigned => 0 <= z < 2 ^ (8 * Z.of_N (el_width e))
       | _ => - 2 ^ (8 * Z.of_N (el_width e) - 1) <= z < 2 ^ (8 * Z.of_N (el_width e) - 1)
       end)%Z
  | RealFill _ => True
  end.

(** A document of the array [a] without anything unusual: little endian zarr (single
    bytes have no order), no half precision, a fill value that is an element and fits a double, some
    axes, no empty chunks, usual parameters. *)
Record ordinary (j : json) (a : document) : Prop := {
  or_order : el_big (do_elem a) = false;
  or_byte : forall s, text (member "dtype" j) = Some s -> el_width (do_elem a) = 1 -> s = "|i1"%string \/ s = "|u1"%string;
  or_real : el_kind (do_elem a) = Real -> el_width (do_elem a) = 4 \/ el_width (do_elem a) = 8;
  or_fill : small_fill (do_fill a) /\ fill_in_range (do_elem a) (do_fill a);
  or_axes : do_shape a <> [];
  or_chunks : Forall (fun n => 0 < n) (do_chunks a);
  or_stream : do_layout a = N5 -> do_stream a <> Zlib;
  or_parameters : parameters j a
}.
(** The document that [S_Document.read_node] reads. *)
Definition node_document (t : fsys) (p : path) : option json :=
  match t (p ++ ["zarr.json"%string]), t (p ++ [".zarray"%string]), t (p ++ ["attributes.json"%string]) with
  | Some (NDoc j), _, _ | None, Some (NDoc j), _ | None, None, Some (NDoc j) => Some j
  | _, _, _ => None
  end.

(** The settings that a compressor has, as zarr v3 writes them. *)
Definition setting_of (c : codec_config) (w : N) : option v3_setting :=
  match c with
  | Cfg_raw => Some Plain
  | Cfg_zlib l _ => Some (GzipLevel l)
  | Cfg_zstd l => Some (ZstdLevel l false)
  | Cfg_blosc l s cn bs _ =>
      match s with
      | 0 => Some (BloscSetting cn l "noshuffle" (Z.of_N w) bs)
      | 1 => Some (BloscSetting cn l "shuffle" (Z.of_N w) bs)
      | 2 => Some (BloscSetting cn l "bitshuffle" (Z.of_N w) bs)
      | _ => None
      end%Z%string
  | _ => None
  end.
