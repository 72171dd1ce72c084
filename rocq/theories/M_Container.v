(** Model of containers: creating, opening and removing files, groups and datasets
    (include/z5/factory.hxx, include/z5/filesystem/factory.hxx,
    include/z5/filesystem/handle.hxx, include/z5/generic/metadata.hxx,
    include/z5/filesystem/metadata.hxx). *)
From Coq Require Import ZArith String.
From Verif Require Import M_Base M_Double M_Json M_Mode M_Key M_Blocking M_Metadata M_Fs M_Attributes.
Import ListNotations.
Local Open Scope list_scope.
Local Open Scope N_scope.

(** * Handles *)

(** A file or group handle: path and mode, include/z5/filesystem/handle.hxx:79-92,
    136-146.  Dataset handles are in [ds_handle]. *)
Record handle := Handle { h_path : path; h_mode : mode }.

(** Group::create, include/z5/filesystem/handle.hxx:101-110, and Dataset::create,
    lines 211-222. *)
Definition node_create (h : handle) : fact unit := fun s =>
  (if is_mode_r (h_mode h) then fret (Throw EInvalidArgument)
   else if fs_exists s (h_path h) then fret (Throw EInvalidArgument)
   else fs_mkdirs (h_path h)) s.

(** File::create, include/z5/filesystem/handle.hxx:153-162. *)
Definition file_create (h : handle) : fact unit := fun s =>
  (if negb (can_create (h_mode h)) then fret (Throw EInvalidArgument)
   else if fs_exists s (h_path h) then fret (Throw EInvalidArgument)
   else fs_mkdirs (h_path h)) s.

(** Group::remove, File::remove, Dataset::remove,
    include/z5/filesystem/handle.hxx:112-122, 164-173, 224-233. *)
Definition node_remove (h : handle) : fact unit := fun s =>
  (if negb (can_write (h_mode h)) then fret (Throw EInvalidArgument)
   else if negb (fs_exists s (h_path h)) then fret (Throw EInvalidArgument)
   else fs_remove_all (h_path h)) s.

(** in(key) of groups and files, elementExists,
    include/z5/filesystem/handle.hxx:59-62. *)
Definition group_in (s : fsys) (h : handle) (key : path) : bool := fs_isdir s (h_path h ++ key).

(** * Metadata documents *)

(** n5Format(), include/z5/metadata.hxx:22-30. *)
Definition n5_format : string := "2.0.0".

(** writeV3GroupMetadata, include/z5/generic/metadata.hxx:16-26. *)
Definition write_v3_group (p : path) : fact unit :=
  do* j0 <- freading (fun s => read_doc_or s p "zarr.json" JNull) in
  do* j1 <- fret (jput "zarr_format" (JInt 3) j0) in
  do* j2 <- fret (jput "node_type" (JStr "group") j1) in
  do* j3 <- fret (match jfind "attributes" j2 with
                  | Some _ => Ok j2
                  | None => jput "attributes" (JObj []) j2
                  end) in
  write_doc p "zarr.json" j3.

(** writeFileMetadata, include/z5/generic/metadata.hxx:29-47. *)
Definition write_file_metadata (p : path) (is_zarr : bool) (fmt : Z) : fact unit :=
  if is_zarr && (fmt =? 3)%Z then write_v3_group p
  else if is_zarr then write_doc p ".zgroup" (JObj [("zarr_format"%string, JInt fmt)])
  else
    do* j0 <- freading (fun s => read_doc_or s p "attributes.json" JNull) in
    do* j1 <- fret (jput "n5" (JStr n5_format) j0) in
    write_doc p "attributes.json" j1.

(** writeGroupMetadata, include/z5/generic/metadata.hxx:50-62. *)
Definition write_group_metadata (p : path) (is_zarr : bool) (fmt : Z) : fact unit :=
  if is_zarr && (fmt =? 3)%Z then write_v3_group p
  else if is_zarr then write_doc p ".zgroup" (JObj [("zarr_format"%string, JInt fmt)])
  else fret (Ok tt).

(** writeDatasetMetadata, include/z5/generic/metadata.hxx:65-82. *)
Definition write_dataset_metadata (p : path) (m : metadata) : fact unit :=
  if md_zarr m && (md_format m =? 3)%Z then
    do* ex <- freading (fun s => read_doc s p "zarr.json") in
    do* j <- fret (to_json m) in
    do* j' <- fret (match ex with
                    | Some e => match jfind "attributes" e with
                                | Some a => jput "attributes" a j
                                | None => Ok j
                                end
                    | None => Ok j
                    end) in
    write_doc p "zarr.json" j'
  else
    do* j <- fret (to_json m) in
    write_doc p (if md_zarr m then ".zarray" else "attributes.json") j.

(** getMetadataPath, include/z5/filesystem/metadata.hxx:24-41: is zarr, and the
    document. *)
Definition metadata_doc (s : fsys) (p : path) : outcome (bool * string) :=
  let has_zarr := fs_exists s (p ++ [".zarray"%string]) in
  let has_v3 := fs_exists s (p ++ ["zarr.json"%string]) in
  let has_n5 := fs_exists s (p ++ ["attributes.json"%string]) in
  if (has_zarr || has_v3) && has_n5 then Throw ERuntime
  else if negb has_zarr && negb has_v3 && negb has_n5 then Throw ERuntime
  else Ok (has_zarr || has_v3,
           if has_v3 then "zarr.json" else if has_zarr then ".zarray" else "attributes.json")%string.

(** readMetadata for datasets, include/z5/filesystem/metadata.hxx:92-98. *)
Definition read_dataset_metadata (s : fsys) (p : path) : outcome metadata :=
  let! (z, name) := metadata_doc s p in
  let! j := parse_doc s p name in
  from_json j z.

(** readMetadata for groups and files, include/z5/filesystem/metadata.hxx:64-89,
    into a null value: the non-const operator[] yields null for a missing key. *)
Definition read_group_metadata (s : fsys) (p : path) : outcome json :=
  let get k j := match jfind k j with Some v => v | None => JNull end in
  let! z := is_zarr_group s p in
  if z then
    if fs_exists s (p ++ ["zarr.json"%string]) then
      let! j := parse_doc s p "zarr.json" in
      let! _ := (match j with JObj _ | JNull => Ok tt | _ => Throw EJson end) in
      Ok (JObj (("zarr_format", get "zarr_format" j) ::
                match jfind "node_type" j with Some v => [("node_type", v)] | None => [] end)%string)
    else
      let! j := parse_doc s p ".zgroup" in
      let! _ := (match j with JObj _ | JNull => Ok tt | _ => Throw EJson end) in
      Ok (JObj [("zarr_format", get "zarr_format" j)]%string)
  else
    let! j := parse_doc s p "attributes.json" in
    match jfind "n5" j with
    | Some v => Ok (JObj [("n5"%string, v)])
    | None => Ok JNull
    end.

(** * Datasets *)

(** A dataset object: the dataset handle with its key configuration
    (include/z5/filesystem/handle.hxx:184-196, include/z5/handle.hxx:117-134; the
    isZarr flag is set from the metadata, include/z5/generic/dataset.hxx:35) and
    the members computed from the metadata (include/z5/dataset.hxx:30-38, 174-216,
    include/z5/generic/sharded_dataset.hxx:38-47). *)
Record opened := Opened {
  op_path : path;
  op_mode : mode;
  op_keys : key_config;
  op_dtype : dtype;
  op_shape : shape;
  op_chunks : shape;
  op_fill : fill_elem;
  op_codec : codec_config;
  op_shard : shape              (* [] for plain datasets *)
}.

(** The chunk key configuration of a dataset handle. *)
Record key_args := KeyArgs { ka_delim : string; ka_format : Z; ka_enc : string }.

(** makeDataset, include/z5/filesystem/factory.hxx:14-39, with the constructors in
    the order of their members: the grid, the fill value, the compressor; complex
    data types are never sharded.  Simplified: the shard geometry is computed by
    [M_Sharded.open_sharded] from the shard shape kept here. *)
Definition make_dataset (h : handle) (ka : key_args) (m : metadata) : outcome opened :=
  let! _ := mk_blocking (md_shape m) (md_chunks m) in
  let! f := element_fill (md_dtype m) (md_fill m) in
  let! c := init_compressor (md_comp m) (md_opts m) in
  let is_complex := match md_dtype m with
                    | DT_complex64 | DT_complex128 | DT_complex256 => true
                    | _ => false
                    end in
  let shard := if is_complex then [] else md_shard m in
  let z := match shard with [] => md_zarr m | _ => true end in
  Ok (Opened (h_path h) (h_mode h)
             (KeyConfig z (ka_delim ka) (Z.to_N (ka_format ka)) (ka_enc ka))
             (md_dtype m) (md_shape m) (md_chunks m) f c shard).

(** filesystem::openDataset, include/z5/filesystem/factory.hxx:43-54. *)
Definition fs_open_dataset (s : fsys) (h : handle) (ka : key_args) : outcome opened :=
  if negb (fs_exists s (h_path h)) then Throw ERuntime
  else
    let! m := read_dataset_metadata s (h_path h) in
    make_dataset h ka m.

(** filesystem::createDataset, include/z5/filesystem/factory.hxx:57-65. *)
Definition fs_create_dataset (h : handle) (ka : key_args) (m : metadata) : fact opened :=
  do* _ <- node_create h in
  do* _ <- write_dataset_metadata (h_path h) m in
  fret (make_dataset h ka m).

(** getZarrChunkConfig, include/z5/factory.hxx:15-56, from the defaults of
    openDataset (lines 62-64). *)
Definition chunk_config (s : fsys) (p : path) : outcome key_args :=
  if fs_exists s (p ++ ["zarr.json"%string]) then
    let! j := parse_doc s p "zarr.json" in
    match jfind "chunk_key_encoding" j with
    | Some cke =>
        let! enc := jvalue jget_str "name" "default"%string cke in
        let dflt := (if String.eqb enc "v2" then "." else "/")%string in
        let! delim :=
          match jfind "configuration" cke with
          | Some cfg => match jfind "separator" cfg with
                        | Some v => jget_str v
                        | None => Ok dflt
                        end
          | None => Ok dflt
          end in
        Ok (KeyArgs delim 3 enc)
    | None => Ok (KeyArgs "/" 3 "default")
    end
  else if fs_exists s (p ++ [".zarray"%string]) then
    let! j := parse_doc s p ".zarray" in
    let! delim := match jfind "dimension_separator" j with
                  | Some v => jget_str v
                  | None => Ok "."%string
                  end in
    Ok (KeyArgs delim 2 "default")
  else Ok (KeyArgs "." 2 "default").

(** openDataset, include/z5/factory.hxx:59-90. *)
Definition open_dataset (s : fsys) (root : handle) (key : path) : outcome opened :=
  let! z := is_zarr_group s (h_path root) in
  let! ka := if z then chunk_config s (h_path root ++ key) else Ok (KeyArgs "." 2 "default") in
  fs_open_dataset s (Handle (h_path root ++ key) (h_mode root)) ka.

(** createDataset from metadata, include/z5/factory.hxx:93-117. *)
Definition create_dataset_md (root : handle) (key : path) (m : metadata) : fact opened :=
  fs_create_dataset (Handle (h_path root ++ key) (h_mode root))
    (KeyArgs (md_delim m) (md_format m) (md_enc m)) m.

(** createDataset from arguments, include/z5/factory.hxx:120-158. *)
Definition create_dataset (root : handle) (key : path) (dtype_name : string) (sh ch : shape)
    (comp_name : string) (o : options) (fill : dbl) (delim : string) (fmt : Z) (enc : string)
    (shard : shape) : fact opened :=
  do* z <- freading (fun s => is_zarr_group s (h_path root)) in
  do* m <- fret (create_metadata dtype_name sh ch z comp_name o fill delim fmt enc shard) in
  fs_create_dataset (Handle (h_path root ++ key) (h_mode root)) (KeyArgs delim fmt enc) m.

(** jsonToCompressionType, include/z5/types/types.hxx:553-570 (the options of the
    python interface). *)
Fixpoint json_options (l : list (string * json)) (o : options) : outcome options :=
  match l with
  | [] => Ok o
  | (k, v) :: r =>
      let! x := match v with
                | JInt _ | JUInt _ => let! z := jget_int v in Ok (OInt z)
                | JBool b => Ok (OBool b)
                | JStr t => Ok (OStr t)
                | _ => Throw ERuntime
                end in
      json_options r (sput k x o)
  end.

(** createFile, include/z5/factory.hxx:193-209 and
    include/z5/filesystem/factory.hxx:68-73. *)
Definition create_file (h : handle) (is_zarr : bool) (fmt : Z) : fact unit :=
  do* _ <- file_create h in
  write_file_metadata (h_path h) is_zarr fmt.

(** createGroup, include/z5/factory.hxx:211-230 and
    include/z5/filesystem/factory.hxx:76-80: the new handle is made before
    root.isZarr() is evaluated, but has no effect. *)
Definition create_group (root : handle) (key : path) (fmt : Z) : fact unit :=
  do* z <- freading (fun s => is_zarr_group s (h_path root)) in
  do* _ <- node_create (Handle (h_path root ++ key) (h_mode root)) in
  write_group_metadata (h_path root ++ key) z fmt.

(** * The python File object, src/python/module/z5py/file.py *)

(** infer_format, src/python/module/z5py/file.py:66-93; [ext] is what the file
    extension says (Some true: .zarr, .zr; Some false: .n5; None: any other). *)
Definition infer_format (s : fsys) (p : path) (ext : option bool) : bool :=
  match ext with
  | Some z => z
  | None => fs_exists s (p ++ [".zgroup"%string]) || fs_exists s (p ++ [".zarray"%string])
            || fs_exists s (p ++ ["zarr.json"%string])
  end.

(** The first character of a text as python's int() reads it. *)
Definition first_digit (t : string) : option N :=
  match t with
  | String c _ => let n := Ascii.N_of_ascii c in if (48 <=? n) && (n <=? 57) then Some (n - 48) else None
  | EmptyString => None
  end.

(** _check_version, src/python/module/z5py/file.py:141-154: the zarr format found.
    Python exceptions: RuntimeError is ERuntime, the others (AttributeError for a
    document without version: read_metadata yields null, TypeError, ValueError)
    are ELogic.  Simplified: an n5 version that is no text is an error. *)
Definition check_version (s : fsys) (p : path) (fmt : Z) : outcome Z :=
  let! md := read_group_metadata s p in
  let! z := is_zarr_group s p in
  if z then
    match jfind "zarr_format" md with
    | Some v => if jeq_int v 2 then Ok 2%Z else if jeq_int v 3 then Ok 3%Z else Throw ERuntime
    | None => Throw ELogic
    end
  else
    match md with
    | JNull => Throw ELogic
    | _ =>
        match jfind "n5" md with
        | None | Some JNull => Ok fmt
        | Some (JStr t) =>
            match first_digit t with
            | Some d => if 4 <? d then Throw ERuntime else Ok fmt
            | None => Throw ELogic
            end
        | Some _ => Throw ELogic
        end
    end.

(** File.__init__, src/python/module/z5py/file.py:95-134; the result is
    self._zarr_format.  OSError is EFilesystem. *)
Definition py_open_file (h : handle) (ext use_zarr : option bool) (fmt : Z) : fact Z := fun s =>
  let z := infer_format s (h_path h) ext in
  let consistent := match use_zarr with None => true | Some u => Bool.eqb u z end in
  (if negb consistent then fret (Throw ERuntime)
   else
     do* _ <- (if fs_exists s (h_path h) && should_truncate (h_mode h) then node_remove h else fret (Ok tt)) in
     do* here <- freading (fun s => Ok (fs_exists s (h_path h))) in
     if here then
       if must_not_exist (h_mode h) then fret (Throw EFilesystem)
       else freading (fun s => check_version s (h_path h) fmt)
     else if negb (can_create (h_mode h)) then fret (Throw EFilesystem)
     else do* _ <- create_file h z fmt in fret (Ok fmt)) s.
