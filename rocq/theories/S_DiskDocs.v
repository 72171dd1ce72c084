(** Specification of containers on a failing disk. *)
From Coq Require Import ZArith String.
From Verif Require Import M_Base M_Double M_Json M_Mode M_Key M_Metadata M_Fs M_Attributes M_Container M_Store M_S3Container M_DiskDocs
  S_Text S_S3 S_S3Container.
Import ListNotations.
Local Open Scope list_scope.
Local Open Scope N_scope.

(** The exceptions of failing accesses: fs::filesystem_error, parse_error. *)
Definition doc_error (e : error) : Prop := e = EFilesystem \/ e = EJson.

(** The calls on the container in the directory [p] ([z]: createFile makes a zarr
    container), on a disk that works ... *)
Definition sound_call (z : bool) (m : mode) (p : path) (c : cont_call) : act fsys cont_answer :=
  match c with
  | KCreateFile fmt => amap (fun _ => AUnit) (create_file (Handle p m) z fmt)
  | _ => dir_call m p c
  end.
(** ... and on one that may fail. *)
Definition disk_call (T : text_codec) (z : bool) (m : mode) (p : path) (c : cont_call) : act docs cont_answer :=
  match c with
  | KExists q => amap ABool (doc_exists (p ++ q))
  | KIn q c => amap ABool (doc_in (p ++ q) [c])
  | KIsZarr k q => amap ABool (doc_is_zarr k (p ++ q))
  | KIsSubGroup q c => amap ABool (doc_is_sub_group T (p ++ q) c)
  | KReadAttrs k q => amap AJson (doc_read_attributes T k (p ++ q))
  | KWriteAttrs k q j => amap (fun _ => AUnit) (doc_write_attributes T k m (p ++ q) j)
  | KRemoveAttr k q a => amap (fun _ => AUnit) (doc_remove_attribute T k m (p ++ q) a)
  | KOpen q c => amap (opened_at (p ++ q ++ [c])) (doc_open_dataset (Handle (p ++ q) m) [c])
  | KCreateFile fmt => amap (fun _ => AUnit) (doc_create_file T (Handle p m) z fmt)
  | KCreateGroup q c fmt => amap (fun _ => AUnit) (doc_create_group T (Handle (p ++ q) m) [c] fmt)
  | KCreateDataset q c dt sh ch cn o fill delim fmt enc shard =>
      amap (opened_at (p ++ q ++ [c])) (doc_create_dataset T (Handle (p ++ q) m) [c] dt sh ch cn o fill delim fmt enc shard)
  | KRemove q => amap (fun _ => AUnit) (doc_remove (Handle (p ++ q) m))
  end.

(** The name given to isSubGroup has no "/". *)
Definition call_named (c : cont_call) : Prop :=
  match c with KIsSubGroup _ c => plain_name c | _ => True end.

(** Every document that is written is saved. *)
Definition writes_saved (s : docs) : Prop := Forall (eq Saved) (dc_writes s).
(** No access fails. *)
Definition docs_work (s : docs) : Prop := Forall (eq DocWorks) (dc_fates s) /\ writes_saved s.

(** The node of a call that makes one. *)
Definition new_node (p : path) (c : cont_call) : option path :=
  match c with
  | KCreateFile _ => Some p
  | KCreateGroup q c _ | KCreateDataset q c _ _ _ _ _ _ _ _ _ _ => Some (p ++ q ++ [c])
  | _ => None
  end.
(** What a call may leave that threw because of the disk: the files are as before,
    except for directories on the way to a new node, and parts of a removed one. *)
Definition left_by (p : path) (c : cont_call) (t t' : fsys) : Prop :=
  forall x, t' x = t x \/
    (exists n, new_node p c = Some n /\ below x n = true /\ t x = None /\ t' x = Some NDir) \/
    (exists q, c = KRemove q /\ below (p ++ q) x = true /\ t' x = None).

(** The documents that a call writes. *)
Definition written_docs (p : path) (c : cont_call) (d : path) : Prop :=
  let doc q names := exists n, In n names /\ d = q ++ [n] in
  match c with
  | KWriteAttrs _ q _ | KRemoveAttr _ q _ => doc (p ++ q) [".zattrs"; "zarr.json"; "attributes.json"]%string
  | KCreateFile _ => doc p [".zgroup"; "zarr.json"; "attributes.json"]%string
  | KCreateGroup q c _ => doc (p ++ q ++ [c]) [".zgroup"; "zarr.json"]%string
  | KCreateDataset q c _ _ _ _ _ _ _ _ _ _ => doc (p ++ q ++ [c]) [".zarray"; "zarr.json"; "attributes.json"]%string
  | _ => False
  end.
(** Instead of [t1] the files are [t']: one of the documents is still as in [t], or a
    part of its text. *)
Definition one_lost (T : text_codec) (p : path) (c : cont_call) (t t1 t' : fsys) : Prop :=
  exists d j, written_docs p c d /\ t1 d = Some (NDoc (reparse j)) /\ (forall x, x <> d -> t' x = t1 x) /\
    (t' d = t d \/ exists n, (n < List.length (dump T j))%nat /\ t' d = Some (NBlob (firstn n (dump T j)))).

(** * Opening a File object *)

(** What may be left at [p] by a File object that could not be opened because of the
    disk: the files are as before, except for directories on the way, and if the mode
    is w for the old container, of which any part may be gone. *)
Definition open_left (w : bool) (p : path) (t t' : fsys) : Prop :=
  forall x, t' x = t x \/
    (w = true /\ below p x = true /\ t' x = None) \/
    (below x p = true /\ t' x = Some NDir /\ (t x = None \/ w = true /\ x = p)).
(** The document of the new container is lost. *)
Definition new_lost (T : text_codec) (p : path) (t t1 t' : fsys) : Prop :=
  exists n j, In n [".zgroup"; "zarr.json"; "attributes.json"]%string /\ let d := p ++ [n] in
    t1 d = Some (NDoc (reparse j)) /\ (forall x, x <> d -> t' x = t1 x) /\
    (t' d = None \/ t' d = t d \/ exists k, (k < List.length (dump T j))%nat /\ t' d = Some (NBlob (firstn k (dump T j)))).
