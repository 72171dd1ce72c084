(** Model of containers in an object store: include/z5/s3/attributes.hxx,
    include/z5/s3/metadata.hxx, include/z5/s3/factory.hxx, with the code they share
    with the file system backend (include/z5/generic/attributes.hxx,
    include/z5/generic/metadata.hxx), and src/python/module/z5py/file.py (S3File). *)
From Coq Require Import ZArith Ascii String.
From Verif Require Import M_Base M_Double M_Json M_Mode M_Key M_Blocking M_Metadata M_Fs M_Attributes M_Container M_Store M_S3.
Import ListNotations.
Local Open Scope list_scope.
Local Open Scope N_scope.

(** * Documents as text *)

(** nlohmann's dump(4), and parse, None for a parse_error. *)
Record text_codec := TextCodec { dump : json -> bytes; parse : bytes -> option json }.

(** JsonIO, the template parameter IO of include/z5/generic/attributes.hxx and
    include/z5/generic/metadata.hxx; read: None is false.  [io_node] is nodeExists if
    the class has it (hasNodeExists). *)
Record json_io (S : Type) := JsonIO {
  io_exists : string -> act S bool;
  io_read : string -> act S (option json);
  io_write : string -> json -> act S unit;
  io_node : option (string -> act S bool)
}.
Arguments io_exists {S}. Arguments io_read {S}. Arguments io_write {S}. Arguments io_node {S}.
Arguments JsonIO {S}.

Section Generic.
Context {S : Type} (io : json_io S).

(** io.read(name, j): j is kept if there is no such document. *)
Definition io_read_or (name : string) (j : json) : act S json :=
  do^ o <- io_read io name in aret (Ok (match o with Some x => x | None => j end)).

(** readV3Attributes, include/z5/generic/attributes.hxx:24-32. *)
Definition g_read_v3_attributes (j : json) : act S json :=
  do^ full <- io_read io "zarr.json" in
  aret (Ok (match full with
            | None => j
            | Some f => match jfind "attributes" f with Some a => a | None => j end
            end)).

(** writeV3Attributes, include/z5/generic/attributes.hxx:35-44. *)
Definition g_write_v3_attributes (j : json) : act S unit :=
  do^ full <- io_read_or "zarr.json" (JObj []) in
  let attrs0 := match jfind "attributes" full with Some a => a | None => JObj [] end in
  do^ attrs <- aret (jmerge j attrs0) in
  do^ full' <- aret (jput "attributes" attrs full) in
  io_write io "zarr.json" full'.

(** removeV3Attribute, include/z5/generic/attributes.hxx:47-56. *)
Definition g_remove_v3_attribute (k : string) : act S unit :=
  do^ full <- io_read io "zarr.json" in
  match full with
  | None => aret (Ok tt)
  | Some f =>
      do^ f' <- aret (match jfind "attributes" f with
                      | Some a => let! a' := jerase k a in jput "attributes" a' f
                      | None => Ok f
                      end) in
      io_write io "zarr.json" f'
  end.

(** [isZarr && io.exists("zarr.json")], include/z5/generic/attributes.hxx:67,77,93. *)
Definition g_is_v3 (is_zarr : bool) : act S bool :=
  if is_zarr then io_exists io "zarr.json" else aret (Ok false).

(** readAttributes, include/z5/generic/attributes.hxx:66-74. *)
Definition g_read_attributes (is_zarr : bool) (j : json) : act S json :=
  do^ v3 <- g_is_v3 is_zarr in
  if v3 then g_read_v3_attributes j else io_read_or (attributes_name is_zarr) j.

(** writeAttributes, include/z5/generic/attributes.hxx:76-90. *)
Definition g_write_attributes (is_zarr : bool) (j : json) : act S unit :=
  do^ v3 <- g_is_v3 is_zarr in
  if v3 then g_write_v3_attributes j
  else
    do^ old <- io_read_or (attributes_name is_zarr) (JObj []) in
    do^ new <- aret (jmerge j old) in
    io_write io (attributes_name is_zarr) new.

(** removeAttribute, include/z5/generic/attributes.hxx:92-105. *)
Definition g_remove_attribute (is_zarr : bool) (k : string) : act S unit :=
  do^ v3 <- g_is_v3 is_zarr in
  if v3 then g_remove_v3_attribute k
  else
    do^ old <- io_read io (attributes_name is_zarr) in
    match old with
    | None => aret (Ok tt)
    | Some o =>
        do^ new <- aret (jerase k o) in
        io_write io (attributes_name is_zarr) new
    end.

(** isSubGroup, include/z5/generic/attributes.hxx:107-134. *)
Definition g_is_sub_group (is_zarr : bool) (key : string) : act S bool :=
  do^ there <- (match io_node io with Some f => f key | None => aret (Ok true) end) in
  if negb there then aret (Ok false)
  else if is_zarr then
    do^ v3 <- io_exists io (key ++ "/zarr.json") in
    if v3 then
      do^ j <- io_read_or (key ++ "/zarr.json") JNull in
      do^ nt <- aret (jvalue jget_str "node_type" "group"%string j) in
      aret (Ok (String.eqb nt "group"))
    else io_exists io (key ++ "/.zgroup")
  else
    do^ o <- io_read io (key ++ "/attributes.json") in
    match o with
    | None => aret (Ok true)
    | Some j => do^ b <- aret (has_all_n5 j) in aret (Ok (negb b))
    end.

(** writeV3GroupMetadata, include/z5/generic/metadata.hxx:16-26. *)
Definition g_write_v3_group : act S unit :=
  do^ j0 <- io_read_or "zarr.json" JNull in
  do^ j1 <- aret (jput "zarr_format" (JInt 3) j0) in
  do^ j2 <- aret (jput "node_type" (JStr "group") j1) in
  do^ j3 <- aret (match jfind "attributes" j2 with
                  | Some _ => Ok j2
                  | None => jput "attributes" (JObj []) j2
                  end) in
  io_write io "zarr.json" j3.

(** writeFileMetadata, include/z5/generic/metadata.hxx:29-47. *)
Definition g_write_file_metadata (is_zarr : bool) (fmt : Z) : act S unit :=
  if is_zarr && (fmt =? 3)%Z then g_write_v3_group
  else if is_zarr then io_write io ".zgroup" (JObj [("zarr_format"%string, JInt fmt)])
  else
    do^ j0 <- io_read_or "attributes.json" JNull in
    do^ j1 <- aret (jput "n5" (JStr n5_format) j0) in
    io_write io "attributes.json" j1.

(** writeGroupMetadata, include/z5/generic/metadata.hxx:50-62. *)
Definition g_write_group_metadata (is_zarr : bool) (fmt : Z) : act S unit :=
  if is_zarr && (fmt =? 3)%Z then g_write_v3_group
  else if is_zarr then io_write io ".zgroup" (JObj [("zarr_format"%string, JInt fmt)])
  else aret (Ok tt).

(** writeDatasetMetadata, include/z5/generic/metadata.hxx:65-82. *)
Definition g_write_dataset_metadata (m : metadata) : act S unit :=
  if md_zarr m && (md_format m =? 3)%Z then
    do^ ex <- io_read io "zarr.json" in
    do^ j <- aret (to_json m) in
    do^ j' <- aret (match ex with
                    | Some e => match jfind "attributes" e with
                                | Some a => jput "attributes" a j
                                | None => Ok j
                                end
                    | None => Ok j
                    end) in
    io_write io "zarr.json" j'
  else
    do^ j <- aret (to_json m) in
    io_write io (if md_zarr m then ".zarray" else "attributes.json")%string j.
End Generic.

(** filesystem::attrs_detail::JsonIO, include/z5/filesystem/attributes.hxx:15-60, at
    [base]; names are plain or two plain names joined by "/". *)
Definition fs_io (base : path) : json_io fsys := {|
  io_exists name := freading (fun s => Ok (fs_exists s (base ++ split_slash name "")));
  io_read name := freading (fun s =>
    read_doc s (base ++ removelast (split_slash name "")) (last (split_slash name "") ""%string));
  io_write name j := write_doc base name j;
  io_node := Some (fun key => freading (fun s => Ok (fs_exists s (base ++ split_slash key ""))))
|}.

Section S3.
Variable T : text_codec.

(** readJson, include/z5/s3/attributes.hxx:13-25. *)
Definition s3_read_json (key : string) : act s3 (option json) :=
  do^ o <- get_object key in
  aret (match o with
        | None => Ok None
        | Some [] => Ok (Some (JObj []))
        | Some b => match parse T b with Some j => Ok (Some j) | None => Throw EJson end
        end).
(** writeJson, include/z5/s3/attributes.hxx:27-30.  Simplified: strings are valid
    UTF-8, so that dump does not throw. *)
Definition s3_write_json (key : string) (j : json) : act s3 unit := put_object key (dump T j).

(** s3::attrs_detail::JsonIO, include/z5/s3/attributes.hxx:36-67. *)
Definition s3_io (h : s3_handle) : json_io s3 := {|
  io_exists name := object_exists (join_key (sh_name h) name);
  io_read name := s3_read_json (join_key (sh_name h) name);
  io_write name j := s3_write_json (join_key (sh_name h) name) j;
  io_node := None
|}.

(** isZarr() of the handles, include/z5/s3/handle.hxx:476,525,578-588.  Simplified: a
    dataset handle caches the first answer; here a call asks once. *)
Definition s3_handle_is_zarr (k : hkind) (h : s3_handle) : act s3 bool :=
  match k with HDataset => s3_is_zarr_dataset h | _ => s3_is_zarr_group h end.

(** readAttributes, include/z5/attributes.hxx:63-80,192-216 and
    include/z5/s3/attributes.hxx:72-76,90-94, into a null value. *)
Definition s3_read_attributes (k : hkind) (h : s3_handle) : act s3 json :=
  do^ z <- s3_handle_is_zarr k h in
  do^ j <- g_read_attributes (s3_io h) z JNull in
  aret (match k with HDataset => if z then Ok j else hide_n5 j | _ => Ok j end).

(** isZarr() as writeAttributes and removeAttribute ask for it: the overloads for
    files in include/z5/attributes.hxx:141,170 and the backend's functions
    include/z5/s3/attributes.hxx:80,86 ask separately, the one for groups only
    there, and a dataset handle keeps the answer. [check] is the protection. *)
Definition s3_protected (k : hkind) (h : s3_handle) (check : outcome unit) : act s3 bool :=
  match k with
  | HGroup => s3_is_zarr_group h
  | HFile =>
      do^ z <- s3_is_zarr_group h in
      do^ _ <- aret (if z then Ok tt else check) in
      s3_is_zarr_group h
  | HDataset =>
      do^ z <- s3_is_zarr_dataset h in
      do^ _ <- aret (if z then Ok tt else check) in
      aret (Ok z)
  end.

(** writeAttributes, include/z5/attributes.hxx:82-105,133-160,218-245 and
    include/z5/s3/attributes.hxx:78-82,96-100. *)
Definition s3_write_attributes (k : hkind) (h : s3_handle) (j : json) : act s3 unit :=
  if negb (can_write (sh_mode h)) then aret (Throw EInvalidArgument)
  else
    do^ z <- s3_protected k h (protect_json k j) in
    g_write_attributes (s3_io h) z j.

(** removeAttribute, include/z5/attributes.hxx:107-130,162-189,247-274 and
    include/z5/s3/attributes.hxx:84-88,102-106. *)
Definition s3_remove_attribute (k : hkind) (h : s3_handle) (a : string) : act s3 unit :=
  if negb (can_write (sh_mode h)) then aret (Throw EInvalidArgument)
  else
    do^ z <- s3_protected k h (protect_key k a) in
    g_remove_attribute (s3_io h) z a.

(** isSubGroup, include/z5/s3/attributes.hxx:109-113. *)
Definition s3_is_sub_group (h : s3_handle) (key : string) : act s3 bool :=
  do^ z <- s3_is_zarr_group h in
  g_is_sub_group (s3_io h) z key.

(** readMetadata, include/z5/s3/metadata.hxx:32-56. *)
Definition s3_read_metadata (h : s3_handle) : act s3 metadata :=
  do^ v3 <- object_exists (join_key (sh_name h) "zarr.json") in
  do^ v2 <- (if v3 then aret (Ok false) else object_exists (join_key (sh_name h) ".zarray")) in
  do^ o <- s3_read_json (join_key (sh_name h)
             (if v3 then "zarr.json" else if v2 then ".zarray" else "attributes.json")%string) in
  match o with
  | None => aret (Throw ERuntime)
  | Some j => aret (from_json j (v3 || v2))
  end.

(** makeDatasetTyped, include/z5/s3/factory.hxx:15-29, include/z5/generic/factory.hxx:
    16-32: there are no datasets of complex numbers.  The dataset's name in the
    bucket takes the place of its path. *)
Definition s3_make_dataset (h : s3_handle) (ka : key_args) (m : metadata) : outcome opened :=
  match md_dtype m with
  | DT_complex64 | DT_complex128 | DT_complex256 => Throw ERuntime
  | _ => make_dataset (Handle [sh_name h] (sh_mode h)) ka m
  end.

(** getZarrChunkConfig, include/z5/s3/factory.hxx:36-72, from the defaults of
    openDataset (include/z5/factory.hxx:62-64). *)
Definition s3_chunk_config (root : s3_handle) (key : string) : act s3 key_args :=
  let base := join_key (sh_name root) key in
  do^ v3 <- get_object (join_key base "zarr.json") in
  match v3 with
  | Some b =>
      aret (
      let! j := match parse T b with Some j => Ok j | None => Throw EJson end in
      match jfind "chunk_key_encoding" j with
      | Some cke =>
          let! enc := jvalue jget_str "name" "default"%string cke in
          let dflt := (if String.eqb enc "v2" then "." else "/")%string in
          let! delim :=
            match jfind "configuration" cke with
            | Some cfg => match jfind "separator" cfg with
                          | Some v => jget_str v
                          | None => Ok dflt
                          end
            | None => Ok dflt
            end in
          Ok (KeyArgs delim 3 enc)
      | None => Ok (KeyArgs "/" 3 "default")
      end)
  | None =>
      do^ v2 <- get_object (join_key base ".zarray") in
      aret (
      match v2 with
      | Some b =>
          let! j := match parse T b with Some j => Ok j | None => Throw EJson end in
          let! delim := match jfind "dimension_separator" j with
                        | Some v => jget_str v
                        | None => Ok "."%string
                        end in
          Ok (KeyArgs delim 2 "default")
      | None => Ok (KeyArgs "." 2 "default")
      end)
  end.

(** openDataset, include/z5/factory.hxx:59-75 and include/z5/s3/factory.hxx:75-83. *)
Definition s3_open_dataset (root : s3_handle) (key : string) : act s3 opened :=
  do^ z <- s3_is_zarr_group root in
  do^ ka <- (if z then s3_chunk_config root key else aret (Ok (KeyArgs "." 2 "default"))) in
  let h := s3_child root key in
  do^ e <- s3_exists h in
  if negb e then aret (Throw ERuntime)
  else
    do^ m <- s3_read_metadata h in
    aret (s3_make_dataset h ka m).

(** createDataset, include/z5/factory.hxx:120-147 and include/z5/s3/factory.hxx:86-93. *)
Definition s3_create_dataset (root : s3_handle) (key : string) (dtype_name : string) (sh ch : shape)
    (comp_name : string) (o : options) (fill : dbl) (delim : string) (fmt : Z) (enc : string)
    (shard : shape) : act s3 opened :=
  do^ z <- s3_is_zarr_group root in
  do^ m <- aret (create_metadata dtype_name sh ch z comp_name o fill delim fmt enc shard) in
  let h := s3_child root key in
  do^ _ <- s3_node_create h in
  do^ _ <- g_write_dataset_metadata (s3_io h) m in
  aret (s3_make_dataset h (KeyArgs (md_delim m) (md_format m) (md_enc m)) m).

(** createFile, include/z5/factory.hxx:193-209 and include/z5/s3/factory.hxx:96-102. *)
Definition s3_create_file (h : s3_handle) (is_zarr : bool) (fmt : Z) : act s3 unit :=
  do^ _ <- s3_file_create h in
  g_write_file_metadata (s3_io h) is_zarr fmt.

(** createGroup, include/z5/factory.hxx:211-230 and include/z5/s3/factory.hxx:105-111. *)
Definition s3_create_group (root : s3_handle) (key : string) (fmt : Z) : act s3 unit :=
  do^ z <- s3_is_zarr_group root in
  let h := s3_child root key in
  do^ _ <- s3_node_create h in
  g_write_group_metadata (s3_io h) z fmt.

(** S3File.__init__, src/python/module/z5py/file.py:234-276; OSError is EFilesystem.
    Simplified: use_zarr_format is None or True (False is a NotImplementedError before
    any request). *)
Definition s3_open_file (h : s3_handle) (fmt : Z) : act s3 unit :=
  do^ e <- s3_exists h in
  do^ _ <- (if e && should_truncate (sh_mode h) then s3_remove h else aret (Ok tt)) in
  do^ here <- s3_exists h in
  if here then
    aret (if must_not_exist (sh_mode h) then Throw EFilesystem else Ok tt)
  else if negb (can_create (sh_mode h)) then aret (Throw EFilesystem)
  else s3_create_file h true fmt.
End S3.

(** relativePath, include/z5/s3/factory.hxx:114-129. *)
Definition s3_relative_path (a b : string) : string :=
  match a with
  | EmptyString => b
  | _ =>
      if String.prefix a b then
        match behind a b with
        | String c r => if Ascii.eqb c "/" then r else String c r
        | EmptyString => EmptyString
        end
      else b
  end.
