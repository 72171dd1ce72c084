(** Model of containers on a disk with failing accesses: the code of
    include/z5/filesystem/{handle,attributes,metadata,factory}.hxx and
    include/z5/factory.hxx, where every access to a directory or a document may fail. *)
From Coq Require Import ZArith String.
From Verif Require Import M_Base M_Double M_Json M_Mode M_Key M_Metadata M_Fs M_Attributes M_Container M_Store M_S3Container.
Import ListNotations.
Local Open Scope list_scope.
Local Open Scope N_scope.

(** An access that reports failures: it works, or it fails.  If it makes directories
    then those with up to [n] names are made, if it removes a directory then the
    members [gone] are removed. *)
Inductive doc_fate := DocWorks | DocFails (n : nat) (gone : path -> bool).
(** What becomes of a document that is written through a stream: it is saved, or the
    file cannot be opened, or [n] bytes of the text are saved. *)
Inductive write_fate := Saved | Unopened | Cut (n : nat).

(** The files and the fates of the next accesses; further ones work. *)
Record docs := Docs { dc_files : fsys; dc_fates : list doc_fate; dc_writes : list write_fate }.

(** The fate of the next access. *)
Definition next_doc_fate (s : docs) : docs * doc_fate :=
  match dc_fates s with
  | [] => (s, DocWorks)
  | f :: r => (Docs (dc_files s) r (dc_writes s), f)
  end.
(** The fate of the next document that is written. *)
Definition next_write (s : docs) : docs * write_fate :=
  match dc_writes s with
  | [] => (s, Saved)
  | f :: r => (Docs (dc_files s) (dc_fates s) r, f)
  end.

(** An access that changes nothing; it throws [e] if it fails. *)
Definition doc_access {A} (e : error) (answer : fsys -> outcome A) : act docs A := fun s =>
  let '(s', f) := next_doc_fate s in
  match f with
  | DocWorks => (s', answer (dc_files s'))
  | DocFails _ _ => (s', Throw e)
  end.

(** fs::exists and fs::is_directory throw fs::filesystem_error if the status cannot be
    found out. *)
Definition doc_exists (p : path) : act docs bool := doc_access EFilesystem (fun t => Ok (fs_exists t p)).
Definition doc_isdir (p : path) : act docs bool := doc_access EFilesystem (fun t => Ok (fs_isdir t p)).

(** Parsing a file, include/z5/filesystem/attributes.hxx:38-40,
    include/z5/filesystem/metadata.hxx:18-22, include/z5/factory.hxx:24-27,45-48: a
    stream that cannot be opened or read has no more characters, which is a
    parse_error.  Simplified: documents are objects, whose text has no prefix that can
    be parsed. *)
Definition doc_parse (base : path) (name : string) : act docs json :=
  doc_access EJson (fun t => parse_doc t base name).
(** JsonIO::read, include/z5/filesystem/attributes.hxx:33-42. *)
Definition doc_read (base : path) (name : string) : act docs (option json) :=
  do^ e <- doc_exists (base ++ [name]) in
  if negb e then aret (Ok None)
  else do^ j <- doc_parse base name in aret (Ok (Some j)).

(** fs::create_directories: it makes the missing directories one after the other. *)
Definition doc_mkdirs (p : path) : act docs unit := fun s =>
  let '(s', f) := next_doc_fate s in
  match f with
  | DocWorks => let '(t, r) := fs_mkdirs p (dc_files s') in (Docs t (dc_fates s') (dc_writes s'), r)
  | DocFails n _ =>
      let '(t, r) := fs_mkdirs (firstn n p) (dc_files s') in
      (Docs t (dc_fates s') (dc_writes s'), Throw EFilesystem)
  end.
(** fs::remove_all.  Simplified: if it fails then any part may be gone. *)
Definition doc_remove_all (p : path) : act docs unit := fun s =>
  let '(s', f) := next_doc_fate s in
  match f with
  | DocWorks => let '(t, r) := fs_remove_all p (dc_files s') in (Docs t (dc_fates s') (dc_writes s'), r)
  | DocFails _ gone =>
      (Docs (fun q => if below p q && gone q then None else dc_files s' q) (dc_fates s') (dc_writes s'), Throw EFilesystem)
  end.

Section Docs.
Variable T : text_codec.

(** What is found in a file of which [n] bytes were saved.  Simplified: see
    [doc_parse]; the text ends with the document (the line feed behind it is not
    needed). *)
Definition cut_doc (n : nat) (j : json) : fnode :=
  if (n <? List.length (dump T j))%nat then NBlob (firstn n (dump T j)) else NDoc (reparse j).
(** JsonIO::write and writePretty, include/z5/filesystem/attributes.hxx:44-56: the
    stream is never asked whether it is good. *)
Definition doc_write (base : path) (name : string) (j : json) : act docs unit := fun s =>
  let '(s', f) := next_write s in
  let t := dc_files s' in
  let put t' := Docs t' (dc_fates s') (dc_writes s') in
  match f with
  | Saved => let '(t', r) := write_doc base name j t in (put t', r)
  | Unopened => (s', Ok tt)
  | Cut n =>
      if fs_isdir t base && negb (fs_isdir t (base ++ [name]))
      then (put (fun q => if path_eqb q (base ++ [name]) then Some (cut_doc n j) else t q), Ok tt)
      else (s', Ok tt)
  end.

(** filesystem::attrs_detail::JsonIO, include/z5/filesystem/attributes.hxx:15-60. *)
Definition doc_io (base : path) : json_io docs := {|
  io_exists name := doc_exists (base ++ split_slash name "");
  io_read name := doc_read (base ++ removelast (split_slash name "")) (last (split_slash name "") ""%string);
  io_write name j := doc_write base name j;
  io_node := Some (fun key => doc_exists (base ++ split_slash key ""))
|}.

(** isZarrDataset, isZarrGroup, include/z5/filesystem/handle.hxx:33-48. *)
Definition doc_is_zarr (k : hkind) (p : path) : act docs bool :=
  do^ e <- doc_exists p in
  if negb e then aret (Throw ERuntime)
  else
    do^ v2 <- doc_exists (p ++ [match k with HDataset => ".zarray" | _ => ".zgroup" end%string]) in
    if v2 then aret (Ok true) else doc_exists (p ++ ["zarr.json"%string]).

(** in(key), elementExists, include/z5/filesystem/handle.hxx:59-62. *)
Definition doc_in (p : path) (key : path) : act docs bool :=
  do^ e <- doc_exists (p ++ key) in
  if e then doc_isdir (p ++ key) else aret (Ok false).

(** readAttributes, include/z5/attributes.hxx:63-80,192-216 and
    include/z5/filesystem/attributes.hxx:65-69,84-88. *)
Definition doc_read_attributes (k : hkind) (p : path) : act docs json :=
  do^ z <- doc_is_zarr k p in
  do^ j <- g_read_attributes (doc_io p) z JNull in
  aret (match k with HDataset => if z then Ok j else hide_n5 j | _ => Ok j end).

(** isZarr() as writeAttributes and removeAttribute ask for it: the overload for files
    asks in include/z5/attributes.hxx:141,170 and again in the backend, the one for
    groups only there, and a dataset handle keeps the answer. *)
Definition doc_protected (k : hkind) (p : path) (check : outcome unit) : act docs bool :=
  match k with
  | HGroup => doc_is_zarr k p
  | HFile =>
      do^ z <- doc_is_zarr k p in
      do^ _ <- aret (if z then Ok tt else check) in
      doc_is_zarr k p
  | HDataset =>
      do^ z <- doc_is_zarr k p in
      do^ _ <- aret (if z then Ok tt else check) in
      aret (Ok z)
  end.
(** writeAttributes, include/z5/attributes.hxx:82-105,133-160,218-245 and
    include/z5/filesystem/attributes.hxx:71-75,90-94. *)
Definition doc_write_attributes (k : hkind) (m : mode) (p : path) (j : json) : act docs unit :=
  if negb (can_write m) then aret (Throw EInvalidArgument)
  else
    do^ z <- doc_protected k p (protect_json k j) in
    g_write_attributes (doc_io p) z j.
(** removeAttribute, include/z5/attributes.hxx:107-130,162-189,247-274 and
    include/z5/filesystem/attributes.hxx:77-81,96-100. *)
Definition doc_remove_attribute (k : hkind) (m : mode) (p : path) (a : string) : act docs unit :=
  if negb (can_write m) then aret (Throw EInvalidArgument)
  else
    do^ z <- doc_protected k p (protect_key k a) in
    g_remove_attribute (doc_io p) z a.

(** isSubGroup, include/z5/filesystem/attributes.hxx:103-107. *)
Definition doc_is_sub_group (p : path) (key : string) : act docs bool :=
  do^ z <- doc_is_zarr HGroup p in
  g_is_sub_group (doc_io p) z key.

(** readMetadata for datasets, include/z5/filesystem/metadata.hxx:24-41,92-98. *)
Definition doc_read_metadata (p : path) : act docs metadata :=
  do^ v2 <- doc_exists (p ++ [".zarray"%string]) in
  do^ v3 <- doc_exists (p ++ ["zarr.json"%string]) in
  do^ n5 <- doc_exists (p ++ ["attributes.json"%string]) in
  if (v2 || v3) && n5 then aret (Throw ERuntime)
  else if negb v2 && negb v3 && negb n5 then aret (Throw ERuntime)
  else
    do^ j <- doc_parse p (if v3 then "zarr.json" else if v2 then ".zarray" else "attributes.json")%string in
    aret (from_json j (v2 || v3)).

(** getZarrChunkConfig, include/z5/factory.hxx:15-56. *)
Definition doc_chunk_config (p : path) : act docs key_args :=
  do^ v3 <- doc_exists (p ++ ["zarr.json"%string]) in
  if v3 then
    do^ j <- doc_parse p "zarr.json" in
    aret (
    match jfind "chunk_key_encoding" j with
    | Some cke =>
        let! enc := jvalue jget_str "name" "default"%string cke in
        let dflt := (if String.eqb enc "v2" then "." else "/")%string in
        let! delim :=
          match jfind "configuration" cke with
          | Some cfg => match jfind "separator" cfg with
                        | Some v => jget_str v
                        | None => Ok dflt
                        end
          | None => Ok dflt
          end in
        Ok (KeyArgs delim 3 enc)
    | None => Ok (KeyArgs "/" 3 "default")
    end)
  else
    do^ v2 <- doc_exists (p ++ [".zarray"%string]) in
    if v2 then
      do^ j <- doc_parse p ".zarray" in
      aret (
      let! delim := match jfind "dimension_separator" j with
                    | Some v => jget_str v
                    | None => Ok "."%string
                    end in
      Ok (KeyArgs delim 2 "default"))
    else aret (Ok (KeyArgs "." 2 "default")).

(** openDataset, include/z5/factory.hxx:59-90 and
    include/z5/filesystem/factory.hxx:43-54. *)
Definition doc_open_dataset (root : handle) (key : path) : act docs opened :=
  do^ z <- doc_is_zarr HGroup (h_path root) in
  do^ ka <- (if z then doc_chunk_config (h_path root ++ key) else aret (Ok (KeyArgs "." 2 "default"))) in
  let h := Handle (h_path root ++ key) (h_mode root) in
  do^ e <- doc_exists (h_path h) in
  if negb e then aret (Throw ERuntime)
  else
    do^ m <- doc_read_metadata (h_path h) in
    aret (make_dataset h ka m).

(** Group::create, Dataset::create, include/z5/filesystem/handle.hxx:101-110,211-222,
    and File::create, lines 153-162; [may] is what the mode permits. *)
Definition doc_create (may : bool) (h : handle) : act docs unit :=
  if negb may then aret (Throw EInvalidArgument)
  else
    do^ e <- doc_exists (h_path h) in
    if e then aret (Throw EInvalidArgument) else doc_mkdirs (h_path h).

(** Group::remove, File::remove, Dataset::remove,
    include/z5/filesystem/handle.hxx:112-122,164-173,224-233. *)
Definition doc_remove (h : handle) : act docs unit :=
  if negb (can_write (h_mode h)) then aret (Throw EInvalidArgument)
  else
    do^ e <- doc_exists (h_path h) in
    if negb e then aret (Throw EInvalidArgument) else doc_remove_all (h_path h).

(** createDataset, include/z5/factory.hxx:120-158 and
    include/z5/filesystem/factory.hxx:57-65. *)
Definition doc_create_dataset (root : handle) (key : path) (dtype_name : string) (sh ch : shape)
    (comp_name : string) (o : options) (fill : dbl) (delim : string) (fmt : Z) (enc : string)
    (shard : shape) : act docs opened :=
  do^ z <- doc_is_zarr HGroup (h_path root) in
  do^ m <- aret (create_metadata dtype_name sh ch z comp_name o fill delim fmt enc shard) in
  let h := Handle (h_path root ++ key) (h_mode root) in
  do^ _ <- doc_create (negb (is_mode_r (h_mode h))) h in
  do^ _ <- g_write_dataset_metadata (doc_io (h_path h)) m in
  aret (make_dataset h (KeyArgs delim fmt enc) m).

(** createFile, include/z5/factory.hxx:193-209 and
    include/z5/filesystem/factory.hxx:68-73. *)
Definition doc_create_file (h : handle) (is_zarr : bool) (fmt : Z) : act docs unit :=
  do^ _ <- doc_create (can_create (h_mode h)) h in
  g_write_file_metadata (doc_io (h_path h)) is_zarr fmt.

(** createGroup, include/z5/factory.hxx:211-230 and
    include/z5/filesystem/factory.hxx:76-80. *)
Definition doc_create_group (root : handle) (key : path) (fmt : Z) : act docs unit :=
  do^ z <- doc_is_zarr HGroup (h_path root) in
  let h := Handle (h_path root ++ key) (h_mode root) in
  do^ _ <- doc_create (negb (is_mode_r (h_mode h))) h in
  g_write_group_metadata (doc_io (h_path h)) z fmt.

(** readMetadata for groups and files, include/z5/filesystem/metadata.hxx:64-89. *)
Definition doc_read_group_metadata (p : path) : act docs json :=
  let get k j := match jfind k j with Some v => v | None => JNull end in
  let object (j : json) : outcome unit := match j with JObj _ | JNull => Ok tt | _ => Throw EJson end in
  do^ z <- doc_is_zarr HFile p in
  if z then
    do^ v3 <- doc_exists (p ++ ["zarr.json"%string]) in
    if v3 then
      do^ j <- doc_parse p "zarr.json" in
      aret (let! _ := object j in
            Ok (JObj (("zarr_format", get "zarr_format" j) ::
                      match jfind "node_type" j with Some v => [("node_type", v)] | None => [] end)%string))
    else
      do^ j <- doc_parse p ".zgroup" in
      aret (let! _ := object j in Ok (JObj [("zarr_format", get "zarr_format" j)]%string))
  else
    do^ j <- doc_parse p "attributes.json" in
    aret (Ok (match jfind "n5" j with
              | Some v => JObj [("n5"%string, v)]
              | None => JNull
              end)).

(** _check_version, src/python/module/z5py/file.py:141-154. *)
Definition doc_check_version (p : path) (fmt : Z) : act docs Z :=
  do^ md <- doc_read_group_metadata p in
  do^ z <- doc_is_zarr HFile p in
  aret (
  if z then
    match jfind "zarr_format" md with
    | Some v => if jeq_int v 2 then Ok 2%Z else if jeq_int v 3 then Ok 3%Z else Throw ERuntime
    | None => Throw ELogic
    end
  else
    match md with
    | JNull => Throw ELogic
    | _ =>
        match jfind "n5" md with
        | None | Some JNull => Ok fmt
        | Some (JStr t) =>
            match first_digit t with
            | Some d => if 4 <? d then Throw ERuntime else Ok fmt
            | None => Throw ELogic
            end
        | Some _ => Throw ELogic
        end
    end).

(** os.path.exists: False if the status cannot be found out. *)
Definition doc_probe (p : path) : act docs bool := fun s =>
  let '(s', f) := next_doc_fate s in
  match f with
  | DocWorks => (s', Ok (fs_exists (dc_files s') p))
  | DocFails _ _ => (s', Ok false)
  end.
(** infer_format, src/python/module/z5py/file.py:66-93. *)
Definition doc_infer_format (p : path) (ext : option bool) : act docs bool :=
  match ext with
  | Some z => aret (Ok z)
  | None =>
      do^ a <- doc_probe (p ++ [".zgroup"%string]) in
      if a then aret (Ok true)
      else
        do^ b <- doc_probe (p ++ [".zarray"%string]) in
        if b then aret (Ok true) else doc_probe (p ++ ["zarr.json"%string])
  end.

(** File.__init__, src/python/module/z5py/file.py:95-134. *)
Definition doc_open_file (h : handle) (ext use_zarr : option bool) (fmt : Z) : act docs Z :=
  do^ z <- doc_infer_format (h_path h) ext in
  let consistent := match use_zarr with None => true | Some u => Bool.eqb u z end in
  if negb consistent then aret (Throw ERuntime)
  else
    do^ e <- doc_exists (h_path h) in
    do^ _ <- (if e && should_truncate (h_mode h) then doc_remove h else aret (Ok tt)) in
    do^ here <- doc_exists (h_path h) in
    if here then
      if must_not_exist (h_mode h) then aret (Throw EFilesystem)
      else doc_check_version (h_path h) fmt
    else if negb (can_create (h_mode h)) then aret (Throw EFilesystem)
    else do^ _ <- doc_create_file h z fmt in aret (Ok fmt).
End Docs.
