(** Specification of containers in an object store: what it means that a bucket holds
    the same container as a directory. *)
From Coq Require Import ZArith Ascii String.
From Verif Require Import M_Base M_Double M_Json M_Mode M_Key M_Metadata M_Fs M_Attributes M_Container M_Store M_S3 M_S3Container
  S_Text S_Container S_S3.
Import ListNotations.
Local Open Scope list_scope.
Local Open Scope N_scope.

(** Parsing a dumped value yields what the file system backend reads back; a dumped
    value is never empty. *)
Definition text_ok (T : text_codec) : Prop :=
  forall j, parse T (dump T j) = Some (reparse j) /\ dump T j <> [].

(** The key of the node at the path [q] of the container [n].  The names "." and ".."
    are names like any other (also in M_Fs, whose paths are lists of names). *)
Definition place (n : string) (q : path) : string := fold_left child q n.

(** The documents of zarr nodes that say what they are. *)
Definition markers : list string := [".zgroup"; ".zarray"; "zarr.json"]%string.
(** Names of documents. *)
Definition documents : list string := (".zattrs" :: "attributes.json" :: markers)%string.

(** What is stored in an object that stands for a file. *)
Definition stored (T : text_codec) (c : string) (f : option fnode) (o : option bytes) : Prop :=
  match f with
  | Some (NDoc j) => exists b, o = Some b /\ parse T b = Some j /\ b <> []
  | Some (NBlob b) => o = Some b /\ (In c documents -> parse T b = None /\ b <> [])
  | Some NDir | None => o = None
  end.

(** The zarr container in the directory [p] and the one called [n] in the bucket have
    the same nodes, documents and other files. *)
Record mirror (T : text_codec) (p : path) (n : string) (t : fsys) (s : s3) : Prop := {
  mi_fs : fs_ok t;
  mi_files : forall q c, Forall plain_name (q ++ [c]) ->
    stored T c (t (p ++ q ++ [c])) (lookup (objects s) (place n (q ++ [c])));
  mi_keys : forall k, held s k -> inside n k -> exists q, q <> [] /\ Forall plain_name q /\ k = place n q;
  mi_marker : forall q, Forall plain_name q -> t (p ++ q) = Some NDir ->
    exists c j, In c markers /\ t (p ++ q ++ [c]) = Some (NDoc j);
  mi_names : forall q c, In c documents -> t (p ++ q ++ [c]) <> Some NDir;
  mi_zarr : forall q, Forall plain_name q -> t (p ++ q ++ ["attributes.json"%string]) = None
}.

(** * Calls on a container, for both backends *)

Inductive cont_call :=
| KExists (q : path)                                   (* handle.exists *)
| KIn (q : path) (c : string)                          (* c in group *)
| KIsZarr (k : hkind) (q : path)
| KIsSubGroup (q : path) (c : string)
| KReadAttrs (k : hkind) (q : path)
| KWriteAttrs (k : hkind) (q : path) (j : json)
| KRemoveAttr (k : hkind) (q : path) (a : string)
| KOpen (q : path) (c : string)                        (* openDataset(group, c) *)
| KCreateFile (fmt : Z)
| KCreateGroup (q : path) (c : string) (fmt : Z)
| KCreateDataset (q : path) (c : string) (dtype_name : string) (sh ch : shape) (comp_name : string)
    (o : options) (fill : dbl) (delim : string) (fmt : Z) (enc : string) (shard : shape)
| KRemove (q : path).

(** What a call returns; a dataset object is described by whether it lies where it was
    asked for, and all its other members. *)
Inductive cont_answer := AUnit | ABool (b : bool) | AJson (j : json) | ADataset (there : bool) (o : opened).
Definition without_path (o : opened) : opened :=
  Opened [] (op_mode o) (op_keys o) (op_dtype o) (op_shape o) (op_chunks o) (op_fill o) (op_codec o) (op_shard o).
Definition opened_at (p : path) (o : opened) : cont_answer := ADataset (path_eqb (op_path o) p) (without_path o).

(** The call on the directory [p] ... *)
Definition dir_call (m : mode) (p : path) (c : cont_call) : act fsys cont_answer :=
  match c with
  | KExists q => freading (fun t => Ok (ABool (fs_exists t (p ++ q))))
  | KIn q c => freading (fun t => Ok (ABool (group_in t (Handle (p ++ q) m) [c])))
  | KIsZarr k q => freading (fun t => omap ABool (handle_is_zarr k t (p ++ q)))
  | KIsSubGroup q c => freading (fun t => omap ABool (is_sub_group t (p ++ q) [c]))
  | KReadAttrs k q => freading (fun t => omap AJson (read_attributes k t (p ++ q)))
  | KWriteAttrs k q j => amap (fun _ => AUnit) (write_attributes k m (p ++ q) j)
  | KRemoveAttr k q a => amap (fun _ => AUnit) (remove_attribute k m (p ++ q) a)
  | KOpen q c => freading (fun t => omap (opened_at (p ++ q ++ [c])) (open_dataset t (Handle (p ++ q) m) [c]))
  | KCreateFile fmt => amap (fun _ => AUnit) (create_file (Handle p m) true fmt)
  | KCreateGroup q c fmt => amap (fun _ => AUnit) (create_group (Handle (p ++ q) m) [c] fmt)
  | KCreateDataset q c dt sh ch cn o fill delim fmt enc shard =>
      amap (opened_at (p ++ q ++ [c])) (create_dataset (Handle (p ++ q) m) [c] dt sh ch cn o fill delim fmt enc shard)
  | KRemove q => amap (fun _ => AUnit) (node_remove (Handle (p ++ q) m))
  end.
(** ... and on the container [n] of the bucket. *)
Definition bucket_call (T : text_codec) (m : mode) (n : string) (c : cont_call) : act s3 cont_answer :=
  let h q := S3Handle (place n q) m in
  match c with
  | KExists q => amap ABool (s3_exists (h q))
  | KIn q c => amap ABool (s3_in (h q) c)
  | KIsZarr k q => amap ABool (s3_handle_is_zarr k (h q))
  | KIsSubGroup q c => amap ABool (s3_is_sub_group T (h q) c)
  | KReadAttrs k q => amap AJson (s3_read_attributes T k (h q))
  | KWriteAttrs k q j => amap (fun _ => AUnit) (s3_write_attributes T k (h q) j)
  | KRemoveAttr k q a => amap (fun _ => AUnit) (s3_remove_attribute T k (h q) a)
  | KOpen q c => amap (opened_at [place n (q ++ [c])]) (s3_open_dataset T (h q) c)
  | KCreateFile fmt => amap (fun _ => AUnit) (s3_create_file T (h []) true fmt)
  | KCreateGroup q c fmt => amap (fun _ => AUnit) (s3_create_group T (h q) c fmt)
  | KCreateDataset q c dt sh ch cn o fill delim fmt enc shard =>
      amap (opened_at [place n (q ++ [c])]) (s3_create_dataset T (h q) c dt sh ch cn o fill delim fmt enc shard)
  | KRemove q => amap (fun _ => AUnit) (s3_remove (h q))
  end.

(** The node has the document that belongs to its kind: handles are used for what they
    were made for. *)
Definition is_node (k : hkind) (t : fsys) (p : path) : Prop :=
  t p = Some NDir /\ exists c, In c (match k with HDataset => [".zarray"; "zarr.json"] | _ => [".zgroup"; "zarr.json"] end)%string
                               /\ t (p ++ [c]) <> None.
(** No file of this name. *)
Definition no_file (t : fsys) (p : path) : Prop := t p = None \/ t p = Some NDir.
(** Data types the object store backend has. *)
Definition is_complex (d : dtype) : bool :=
  match d with DT_complex64 | DT_complex128 | DT_complex256 => true | _ => false end.

(** Calls for which the two backends agree, see the theorems about the others: on
    existing nodes, new nodes with names that are no names of documents and with
    metadata that can be written, and no datasets of complex numbers (which can be
    found, but not created). *)
Definition agreed (p : path) (t : fsys) (c : cont_call) : Prop :=
  match c with
  | KExists q => Forall plain_name q /\ no_file t (p ++ q)
  | KIn q c => Forall plain_name (q ++ [c]) /\ no_file t (p ++ q ++ [c])
  | KIsZarr _ q | KReadAttrs _ q => Forall plain_name q /\ t (p ++ q) = Some NDir
  | KIsSubGroup q c => Forall plain_name (q ++ [c]) /\ is_node HGroup t (p ++ q)
  | KWriteAttrs k q _ | KRemoveAttr k q _ => Forall plain_name q /\ is_node k t (p ++ q)
  | KOpen q c => Forall plain_name (q ++ [c]) /\ t (p ++ q) = Some NDir /\
      forall m, read_dataset_metadata t (p ++ q ++ [c]) = Ok m -> is_complex (md_dtype m) = false
  | KCreateFile _ => way_free t p /\ no_file t p
  | KCreateGroup q c _ => Forall plain_name (q ++ [c]) /\ is_node HGroup t (p ++ q) /\
      ~ In c documents /\ no_file t (p ++ q ++ [c])
  | KCreateDataset q c dt sh ch cn o fill delim fmt enc shard =>
      Forall plain_name (q ++ [c]) /\ is_node HGroup t (p ++ q) /\ ~ In c documents /\ no_file t (p ++ q ++ [c]) /\
      forall m, create_metadata dt sh ch true cn o fill delim fmt enc shard = Ok m -> exists j, to_json m = Ok j
  | KRemove q => Forall plain_name q /\ t (p ++ q) = Some NDir /\ p ++ q <> []
  end.

(** Every call of a history is of this kind when it is made. *)
Fixpoint all_agreed (m : mode) (p : path) (cs : list cont_call) (t : fsys) : Prop :=
  match cs with
  | [] => True
  | c :: r => agreed p t c /\ all_agreed m p r (fst (dir_call m p c t))
  end.

(** Everything outside of the container is as it was. *)
Definition rest_same (n : string) (s s' : s3) : Prop :=
  forall k, ~ inside n k -> lookup (objects s') k = lookup (objects s) k.

(** The objects a call may change, whatever becomes of its requests. *)
Definition may_change (n : string) (c : cont_call) (key : string) : Prop :=
  let doc q names := exists d, In d names /\ key = child (place n q) d in
  match c with
  | KWriteAttrs _ q _ | KRemoveAttr _ q _ => doc q [".zattrs"; "zarr.json"; "attributes.json"]%string
  | KCreateFile _ => doc [] [".zgroup"; "zarr.json"]%string
  | KCreateGroup q c _ => doc (q ++ [c]) [".zgroup"; "zarr.json"]%string
  | KCreateDataset q c _ _ _ _ _ _ _ _ _ _ => doc (q ++ [c]) [".zarray"; "zarr.json"; "attributes.json"]%string
  | KRemove q => inside (place n q) key
  | _ => False
  end.

(** Something belongs to the container. *)
Definition there (n : string) (s : s3) : Prop := exists k, held s k /\ inside n k.
(** The container holds the document of a new group and nothing else. *)
Record only_new (T : text_codec) (n : string) (fmt : Z) (s : s3) : Prop := {
  on_doc : exists b, lookup (objects s) (child n (fst (new_doc true fmt))) = Some b /\ parse T b = Some (snd (new_doc true fmt));
  on_none : forall k, inside n k -> k <> child n (fst (new_doc true fmt)) -> ~ held s k
}.
