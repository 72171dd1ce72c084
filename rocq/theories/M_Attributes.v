(** Model of the user attributes of files, groups and datasets:
    include/z5/generic/attributes.hxx, include/z5/attributes.hxx. *)
From Coq Require Import String.
From Verif Require Import M_Base M_Json M_Mode M_Fs.
Import ListNotations.
Local Open Scope list_scope.
Local Open Scope N_scope.

(** The loop [for(jIt = j.begin(); jIt != j.end(); ++jIt)] with jIt.key(): the
    entries of an object; key() throws invalid_iterator for anything else that has
    an element. *)
Definition jentries (j : json) : outcome (list (string * json)) :=
  match j with
  | JObj l => Ok l
  | JNull | JArr [] => Ok []
  | _ => Throw EJson
  end.

(** The merge loops, include/z5/generic/attributes.hxx:39-41,86-88. *)
Definition jmerge (j into : json) : outcome json :=
  let! l := jentries j in
  foldM (fun acc kv => jput (fst kv) (snd kv) acc) l into.

(** readV3Attributes, include/z5/generic/attributes.hxx:24-32; j is the value
    before the call. *)
Definition read_v3_attributes (s : fsys) (p : path) (j : json) : outcome json :=
  let! full := read_doc s p "zarr.json" in
  match full with
  | None => Ok j
  | Some f => match jfind "attributes" f with Some a => Ok a | None => Ok j end
  end.

(** writeV3Attributes, include/z5/generic/attributes.hxx:35-44. *)
Definition write_v3_attributes (p : path) (j : json) : fact unit :=
  do* full <- freading (fun s => read_doc_or s p "zarr.json" (JObj [])) in
  let attrs0 := match jfind "attributes" full with Some a => a | None => JObj [] end in
  do* attrs <- fret (jmerge j attrs0) in
  do* full' <- fret (jput "attributes" attrs full) in
  write_doc p "zarr.json" full'.

(** removeV3Attribute, include/z5/generic/attributes.hxx:47-56. *)
Definition remove_v3_attribute (p : path) (k : string) : fact unit :=
  do* full <- freading (fun s => read_doc s p "zarr.json") in
  match full with
  | None => fret (Ok tt)
  | Some f =>
      do* f' <- fret (match jfind "attributes" f with
                      | Some a => let! a' := jerase k a in jput "attributes" a' f
                      | None => Ok f
                      end) in
      write_doc p "zarr.json" f'
  end.

(** attributesName, include/z5/generic/attributes.hxx:59-61. *)
Definition attributes_name (is_zarr : bool) : string :=
  if is_zarr then ".zattrs" else "attributes.json".

(** readAttributes, include/z5/generic/attributes.hxx:66-74. *)
Definition gen_read_attributes (s : fsys) (p : path) (is_zarr : bool) (j : json) : outcome json :=
  if is_zarr && fs_exists s (p ++ ["zarr.json"%string]) then read_v3_attributes s p j
  else read_doc_or s p (attributes_name is_zarr) j.

(** writeAttributes, include/z5/generic/attributes.hxx:76-90. *)
Definition gen_write_attributes (p : path) (is_zarr : bool) (j : json) : fact unit := fun s =>
  (if is_zarr && fs_exists s (p ++ ["zarr.json"%string]) then write_v3_attributes p j
   else
     do* old <- freading (fun s => read_doc_or s p (attributes_name is_zarr) (JObj [])) in
     do* new <- fret (jmerge j old) in
     write_doc p (attributes_name is_zarr) new) s.

(** removeAttribute, include/z5/generic/attributes.hxx:92-105. *)
Definition gen_remove_attribute (p : path) (is_zarr : bool) (k : string) : fact unit := fun s =>
  (if is_zarr && fs_exists s (p ++ ["zarr.json"%string]) then remove_v3_attribute p k
   else
     do* old <- freading (fun s => read_doc s p (attributes_name is_zarr)) in
     match old with
     | None => fret (Ok tt)
     | Some o =>
         do* new <- fret (jerase k o) in
         write_doc p (attributes_name is_zarr) new
     end) s.

(** isZarrDataset, isZarrGroup, include/z5/filesystem/handle.hxx:33-48. *)
Definition is_zarr_dataset (s : fsys) (p : path) : outcome bool :=
  if negb (fs_exists s p) then Throw ERuntime
  else Ok (fs_exists s (p ++ [".zarray"%string]) || fs_exists s (p ++ ["zarr.json"%string])).
Definition is_zarr_group (s : fsys) (p : path) : outcome bool :=
  if negb (fs_exists s p) then Throw ERuntime
  else Ok (fs_exists s (p ++ [".zgroup"%string]) || fs_exists s (p ++ ["zarr.json"%string])).

(** Which of the overloads for handle::File, handle::Group and handle::Dataset. *)
Inductive hkind := HFile | HGroup | HDataset.
(** isZarr() of the handle.  Simplified: a dataset handle caches the first answer
    (include/z5/filesystem/handle.hxx:213-223, see M_ZarrCache); here it is looked up at each
    use. *)
Definition handle_is_zarr (k : hkind) (s : fsys) (p : path) : outcome bool :=
  match k with HDataset => is_zarr_dataset s p | _ => is_zarr_group s p end.

(** The protected names, include/z5/attributes.hxx:34-35,45-46,55-56. *)
Definition n5_dataset_keys : list string :=
  ["dimensions"; "blockSize"; "dataType"; "compressionType"; "compression"]%string.

(** protectN5FileAttributes(j), include/z5/attributes.hxx:18-23, and
    protectN5DatasetAttributes(j), lines 33-41; the File overloads only protect
    the version, the Group overloads nothing. *)
Definition protect_json (k : hkind) (j : json) : outcome unit :=
  match k with
  | HFile => if jcontains "n5" j then Throw ERuntime else Ok tt
  | HGroup => Ok tt
  | HDataset => if existsb (fun a => jcontains a j) n5_dataset_keys then Throw ERuntime else Ok tt
  end.
(** protectN5FileAttributes(key), protectN5DatasetAttributes(key),
    include/z5/attributes.hxx:25-30,44-50. *)
Definition protect_key (k : hkind) (a : string) : outcome unit :=
  match k with
  | HFile => if String.eqb a "n5" then Throw ERuntime else Ok tt
  | HGroup => Ok tt
  | HDataset => if existsb (fun b => String.eqb b a) n5_dataset_keys then Throw ERuntime else Ok tt
  end.
(** hideN5DatasetAttributes, include/z5/attributes.hxx:53-60. *)
Definition hide_n5 (j : json) : outcome json := foldM (fun acc a => jerase a acc) n5_dataset_keys j.

(** readAttributes, include/z5/attributes.hxx:63-80 (File and Group) and 192-216
    (Dataset), into a default-constructed (null) value as read_attributes of
    src/python/lib/attributes.cxx:23-27 does. *)
Definition read_attributes (k : hkind) (s : fsys) (p : path) : outcome json :=
  let! z := handle_is_zarr k s p in
  let! j := gen_read_attributes s p z JNull in
  match k with
  | HDataset => if z then Ok j else hide_n5 j
  | _ => Ok j
  end.

(** writeAttributes, include/z5/attributes.hxx:82-105, 133-160, 218-245. *)
Definition write_attributes (k : hkind) (m : mode) (p : path) (j : json) : fact unit :=
  if negb (can_write m) then fret (Throw EInvalidArgument)
  else
    do* z <- freading (fun s => handle_is_zarr k s p) in
    do* _ <- fret (if z then Ok tt else protect_json k j) in
    gen_write_attributes p z j.

(** removeAttribute, include/z5/attributes.hxx:107-130, 162-189, 247-274. *)
Definition remove_attribute (k : hkind) (m : mode) (p : path) (a : string) : fact unit :=
  if negb (can_write m) then fret (Throw EInvalidArgument)
  else
    do* z <- freading (fun s => handle_is_zarr k s p) in
    do* _ <- fret (if z then Ok tt else protect_key k a) in
    gen_remove_attribute p z a.

(** hasAllN5DatasetAttributes, include/z5/handle.hxx:240-251: jIt.key() throws for
    values that are no objects. *)
Definition has_all_n5 (j : json) : outcome bool :=
  let! l := jentries j in
  Ok (lenN (filter (fun kv => existsb (String.eqb (fst kv)) n5_dataset_keys) l) =? 4).

(** isSubGroup, include/z5/generic/attributes.hxx:107-134, of the child at p ++ key;
    the file system backend has nodeExists. *)
Definition is_sub_group (s : fsys) (p key : path) : outcome bool :=
  let! z := is_zarr_group s p in
  if negb (fs_exists s (p ++ key)) then Ok false
  else if z then
    if fs_exists s (p ++ key ++ ["zarr.json"%string]) then
      let! j := read_doc_or s (p ++ key) "zarr.json" JNull in
      let! nt := jvalue jget_str "node_type" "group"%string j in
      Ok (String.eqb nt "group")
    else Ok (fs_exists s (p ++ key ++ [".zgroup"%string]))
  else
    let! o := read_doc s (p ++ key) "attributes.json" in
    match o with
    | None => Ok true
    | Some j => let! b := has_all_n5 j in Ok (negb b)
    end.
