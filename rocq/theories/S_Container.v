(** Specification vocabulary for containers. *)
From Coq Require Import ZArith String.
From Verif Require Import M_Base M_Double M_Json M_Mode M_Key M_Bytes M_Format M_Dataset M_Sharded M_Access M_Metadata S_Metadata M_Fs M_Container.
Import ListNotations.
Local Open Scope list_scope.
Local Open Scope N_scope.

(** A file system: a root directory, and everything lies in a directory. *)
Definition fs_ok (s : fsys) : Prop :=
  s [] = Some NDir /\ forall p a, s (p ++ [a]) <> None -> s p = Some NDir.

(** Two dataset objects stand for the same array: same place, element type,
    extents, grid, fill value, shards; the same name for every chunk; codecs that
    produce and understand the same bytes. *)
Record same_object (o o' : opened) : Prop := {
  so_path : op_path o' = op_path o;
  so_mode : op_mode o' = op_mode o;
  so_dtype : op_dtype o' = op_dtype o;
  so_shape : op_shape o' = op_shape o;
  so_chunks : op_chunks o' = op_chunks o;
  so_shard : op_shard o' = op_shard o;
  so_fill : op_fill o' = op_fill o;
  so_zarr : k_zarr (op_keys o') = k_zarr (op_keys o);
  so_delim : k_zarr (op_keys o) = true -> k_delim (op_keys o') = k_delim (op_keys o);
  so_keys : forall ids, chunk_key (op_keys o') ids = chunk_key (op_keys o) ids;
  so_codec : same_codec (op_codec o) (op_codec o')
}.

(** Codec settings the format can record: n5 and zarr v3 only know the gzip
    header, zarr v3 names three shuffle modes of blosc. *)
Definition recordable_codec (is_zarr : bool) (fmt : Z) (c : codec_config) : Prop :=
  match c with
  | Cfg_zlib _ header => is_zarr = true /\ fmt = 2%Z \/ header = false
  | Cfg_blosc _ s _ _ _ => is_zarr = true /\ fmt = 3%Z -> (0 <= s <= 2)%Z
  | _ => True
  end.

(** The fill value the format can record: n5 has none, elements of missing chunks
    are 0. *)
Definition recordable_fill (is_zarr : bool) (d : dtype) (e : fill_elem) : Prop :=
  is_zarr = true \/ element_fill d (DZero false) = Ok e.

(** What [w]idth, fill cell and codec the element type, fill value and codec
    configuration stand for. *)
Definition dataset_of (t : dtype -> elem_type) (f : dtype -> fill_elem -> cell)
    (c : codec_config -> codec) (o : opened) : dataset :=
  Dataset (op_shape o) (op_chunks o) (op_keys o) (t (op_dtype o)) (f (op_dtype o) (op_fill o))
          (c (op_codec o)) (op_mode o).

(** Calls through handles that modify a container. *)
Inductive ccall :=
| CWriteAttr (k : M_Attributes.hkind) (p : path) (j : json)
| CRemoveAttr (k : M_Attributes.hkind) (p : path) (a : string)
| CRemove (p : path)
| CCreateNode (p : path)
| CCreateFile (p : path) (is_zarr : bool) (fmt : Z)
| CCreateGroup (root key : path) (fmt : Z)
| CCreateDatasetMd (root key : path) (m : metadata)
| CCreateDataset (root key : path) (dtype_name : string) (sh ch : shape) (comp_name : string)
    (o : options) (fill : dbl) (delim : string) (fmt : Z) (enc : string) (shard : shape).

Definition drop {A} (m : fact A) : fact unit := do* _ <- m in fret (Ok tt).

(** The call through handles opened with mode [m]. *)
Definition run_ccall (m : mode) (c : ccall) : fact unit :=
  match c with
  | CWriteAttr k p j => M_Attributes.write_attributes k m p j
  | CRemoveAttr k p a => M_Attributes.remove_attribute k m p a
  | CRemove p => node_remove (Handle p m)
  | CCreateNode p => node_create (Handle p m)
  | CCreateFile p z fmt => create_file (Handle p m) z fmt
  | CCreateGroup r k fmt => create_group (Handle r m) k fmt
  | CCreateDatasetMd r k md => drop (create_dataset_md (Handle r m) k md)
  | CCreateDataset r k dn sh ch cn o fill delim fmt enc shard =>
      drop (create_dataset (Handle r m) k dn sh ch cn o fill delim fmt enc shard)
  end.

(** A history of such calls; exceptions are caught by the caller. *)
Fixpoint run_ccalls (m : mode) (cs : list ccall) (s : fsys) : list (outcome unit) * fsys :=
  match cs with
  | [] => ([], s)
  | c :: r => let (s1, o) := run_ccall m c s in
              let (os, s2) := run_ccalls m r s1 in (o :: os, s2)
  end.

(** The container file system after a container has been made at [p]: the
    directories to it, and the one document [name]. *)
Definition fresh_container (s s' : fsys) (p : path) (name : string) (j : json) : Prop :=
  forall q, s' q = if below q p then Some NDir
                   else if path_eqb q (p ++ [name]) then Some (NDoc j)
                   else if below p q then None
                   else s q.

(** * Opening a File object *)

(** What the modes mean (the rules of h5py.File). *)
Inductive open_action := OpenIt | MakeIt | ReplaceIt | RejectIt.
Definition open_rule (m : mode) (existing : bool) : open_action :=
  match m, existing with
  | Mode_r, true | Mode_r_p, true | Mode_a, true => OpenIt
  | Mode_w, true => ReplaceIt
  | Mode_w_m, true => RejectIt
  | Mode_r, false | Mode_r_p, false => RejectIt
  | Mode_w, false | Mode_w_m, false | Mode_a, false => MakeIt
  end.

(** The document of a new container. *)
Definition new_doc (is_zarr : bool) (fmt : Z) : string * json :=
  (if is_zarr then
    if (fmt =? 3)%Z then
      ("zarr.json", JObj [("zarr_format", JUInt 3); ("node_type", JStr "group"); ("attributes", JObj [])])
    else (".zgroup", JObj [("zarr_format", if (0 <=? fmt)%Z then JUInt (Z.to_N fmt) else JInt fmt)])
  else ("attributes.json", JObj [("n5", JStr "2.0.0")]))%string.

(** No plain file is in the way of the directory [p]. *)
Definition way_free (s : fsys) (p : path) : Prop :=
  forall q, below q p = true -> q <> p -> s q = None \/ s q = Some NDir.

(** The first name of a key below a container is not the name of one of its own
    documents. *)
Definition key_free (key : path) : Prop :=
  match key with
  | [] => False
  | a :: _ => a <> ".zgroup"%string /\ a <> "zarr.json"%string
  end.

(** The format asked for is the one the path implies. *)
Definition consistent (z : bool) (use_zarr : option bool) : Prop :=
  use_zarr = None \/ use_zarr = Some z.

(** Directories made on the way to [p], nothing else. *)
Definition only_dirs (s s' : fsys) (p : path) : Prop :=
  forall q, s' q = if below q p then Some NDir else s q.

(** What a new group consists of: its directory and, for zarr, its document. *)
Record group_made (s s' : fsys) (p : path) (z : bool) (fmt : Z) : Prop := {
  gm_dirs : forall q, below q p = true -> s' q = Some NDir;
  gm_doc : z = true -> s' (p ++ [fst (new_doc z fmt)]) = Some (NDoc (snd (new_doc z fmt)));
  gm_empty : forall a r, ~ (z = true /\ a :: r = [fst (new_doc z fmt)]) -> s' (p ++ a :: r) = None;
  gm_frame : forall q, below q p = false -> below p q = false -> s' q = s q
}.

(** Two objects of which every call has the same result and effect. *)
Record same_calls (d d' : dataset) : Prop := {
  sc_write_chunk : forall ids data v n st, write_chunk d' ids data v n st = write_chunk d ids data v n st;
  sc_read_chunk : forall st ids out, read_chunk d' st ids out = read_chunk d st ids out;
  sc_exists : forall st ids, chunk_exists d' st ids = chunk_exists d st ids;
  sc_varlen : forall st ids, check_varlen_chunk d' st ids = check_varlen_chunk d st ids;
  sc_remove : forall ids st, remove_chunk d' ids st = remove_chunk d ids st;
  sc_write : forall src off n st, write_request d' src off n st = write_request d src off n st;
  sc_read : forall st ov off out, read_subarray d' st ov off out = read_subarray d st ov off out
}.
Record same_shard_calls (sd sd' : sharded) : Prop := {
  ss_write_chunk : forall ids data v st, sh_write_chunk sd' ids data v st = sh_write_chunk sd ids data v st;
  ss_read_chunk : forall st ids out, sh_read_chunk sd' st ids out = sh_read_chunk sd st ids out;
  ss_exists : forall st ids, sh_chunk_exists sd' st ids = sh_chunk_exists sd st ids;
  ss_remove : forall ids st, sh_remove_chunk sd' ids st = sh_remove_chunk sd ids st;
  ss_write : forall src off n st, sh_write_request sd' src off n st = sh_write_request sd src off n st;
  ss_read : forall st ov off out, sh_read_subarray sd' st ov off out = sh_read_subarray sd st ov off out
}.

(** The compressors a format can name, and options of the types they have. *)
Definition codec_supported (is_zarr : bool) (fmt : Z) (c : compressor) : Prop :=
  is_zarr = true ->
  c <> C_xz /\ (fmt = 3%Z -> c = C_raw \/ c = C_zlib \/ c = C_zstd \/ c = C_blosc).
Definition option_typed (k : string) (v : optval) : Prop :=
  match v with
  | OInt _ => k <> "useZlib"%string /\ k <> "codec"%string
  | OBool _ => k = "useZlib"%string
  | OStr _ => k = "codec"%string
  end.
Definition options_typed (o : options) : Prop := forall k v, sfind k o = Some v -> option_typed k v.

(** The node a call is about. *)
Definition target (c : ccall) : path :=
  match c with
  | CWriteAttr _ p _ | CRemoveAttr _ p _ | CRemove p | CCreateNode p | CCreateFile p _ _ => p
  | CCreateGroup r k _ => r ++ k
  | CCreateDatasetMd r k _ => r ++ k
  | CCreateDataset r k _ _ _ _ _ _ _ _ _ _ => r ++ k
  end.

(** Outside of the node a call is about, everything that exists stays as it is,
    and only directories appear. *)
Definition outside_kept (p : path) (s s' : fsys) : Prop :=
  forall q, below p q = false -> s' q = s q \/ (s q = None /\ s' q = Some NDir /\ below q p = true).

(** The call is about another node of the container [root] than [key], neither
    above nor below it. *)
Definition sibling_call (root key : path) (c : ccall) : Prop :=
  exists key2, target c = root ++ key2 /\ key_free key2 /\ below key key2 = false /\ below key2 key = false.

(** The element types a caller can ask for, by name. *)
Definition asked_dtype (n : string) (d : dtype) : Prop :=
  (match d with
  | DT_int8 => n = "int8" | DT_int16 => n = "int16" | DT_int32 => n = "int32" | DT_int64 => n = "int64"
  | DT_uint8 => n = "uint8" | DT_uint16 => n = "uint16" | DT_uint32 => n = "uint32" | DT_uint64 => n = "uint64"
  | DT_float32 => n = "float32" | DT_float64 => n = "float64"
  | _ => False
  end)%string.

(** The option [k] as given, else the documented default. *)
Definition asked_int (k : string) (dflt : Z) (op : options) (v : Z) : Prop :=
  sfind k op = Some (OInt v) \/ (sfind k op = None /\ v = dflt).

(** The codec a caller can ask for, by name and options. *)
Definition asked_codec (n : string) (is_zarr : bool) (op : options) (c : codec_config) : Prop :=
  (match c with
  | Cfg_raw => n = "raw"
  | Cfg_blosc l s cn bs nt =>
      n = "blosc" /\ asked_int "level" 5 op l /\ asked_int "shuffle" 1 op s /\
      (sfind "codec" op = Some (OStr cn) \/ sfind "codec" op = None /\ cn = "lz4") /\
      asked_int "blocksize" 0 op bs /\ asked_int "nthreads" 1 op nt
  | Cfg_zlib l u =>
      (n = "zlib" \/ n = "gzip") /\ asked_int "level" 5 op l /\
      (sfind "useZlib" op = Some (OBool u) \/ sfind "useZlib" op = None /\ u = is_zarr)
  | Cfg_bzip2 l => n = "bzip2" /\ asked_int "level" 5 op l
  | Cfg_lz4 l => n = "lz4" /\ asked_int "level" 6 op l
  | Cfg_xz l => n = "xz" /\ asked_int "level" 6 op l
  | Cfg_zstd l => n = "zstd" /\ asked_int "level" 3 op l
  end)%string.

(** A dataset object is what the caller of create_dataset asked for. *)
Record as_asked (root : handle) (key : path) (is_zarr : bool) (dn : string) (sh ch : shape) (cn : string)
    (op : options) (fill : dbl) (delim : string) (fmt : Z) (enc : string) (shard : shape) (o : opened) : Prop := {
  aa_path : op_path o = h_path root ++ key;
  aa_mode : op_mode o = h_mode root;
  aa_dtype : asked_dtype dn (op_dtype o);
  aa_shape : op_shape o = sh;
  aa_chunks : op_chunks o = ch;
  aa_shard : op_shard o = shard;
  aa_fill : element_fill (op_dtype o) fill = Ok (op_fill o);
  aa_keys : op_keys o = KeyConfig is_zarr delim (Z.to_N fmt) enc;
  aa_codec : asked_codec cn is_zarr op (op_codec o)
}.
