(** Specification of datasets on a failing disk. *)
From Verif Require Import M_Base M_Text M_Dataset M_Sharded M_Access M_Store M_S3 M_Disk S_Array S_Grid S_Access S_S3.

(** Exceptions that report a failing access. *)
Definition disk_error (e : error) : Prop := e = ERuntime \/ e = EFilesystem \/ e = ELogic.

(** Whatever is written and reported as written gets to the disk: failures when files
    are closed do not happen. *)
Definition saves_all (s : disk) : Prop := forall n, ~ In (Unsaved n) (disk_fates s).

(** Calls that read. *)
Definition reads_only (c : ds_call) : Prop :=
  match c with KRead _ _ | KRaw _ | KExists _ | KReadArray _ _ _ => True | _ => False end.
(** Calls that write or remove the chunk [ids]. *)
Definition changes_chunk (ids : shape) (c : ds_call) : Prop :=
  match c with KWrite i _ | KVarlenWrite i _ _ | KRemove i => i = ids | _ => False end.

(** Writing the region replaces the chunk without looking at its file: the region
    contains the chunk, and it is not stored with padding. *)
Definition replaced (d : dataset) (off n c : shape) : Prop :=
  (forall x, in_chunk (d_shape d) (d_chunks d) c x -> in_box off n x) /\
  (d_zarr d = true -> chunk_extent (d_shape d) (d_chunks d) c = d_chunks d).

(** No access fails. *)
Definition all_works (s : disk) : Prop := Forall (fun f => f = Works) (disk_fates s).
