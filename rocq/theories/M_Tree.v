(** Model of the chunk files in the tree of a container: include/z5/filesystem/store.hxx
    and include/z5/filesystem/handle.hxx over the file system of [M_Fs], so that chunks,
    documents and directories of all nodes are in one place. *)
From Coq Require Import String.
From Verif Require Import M_Base M_Text M_Json M_Key M_N5Header M_Format M_Mode M_Dataset M_Sharded M_Access
  M_Store M_Fs M_Container.
Import ListNotations.
Local Open Scope list_scope.
Local Open Scope N_scope.

Section Tree.
(** The text of a document.  A file is a document or a blob by what wrote it; as a chunk
    it is read as bytes.  Simplified: a blob is never read as a document (the bytes of a
    chunk may happen to be json). *)
Variable dumped : json -> bytes.
(** The directory of the dataset. *)
Variable p : path.

(** Going up for every ".." at the beginning. *)
Fixpoint climb (d cs : path) : path :=
  match cs with
  | c :: r => if String.eqb c ".." then climb (removelast d) r else d ++ cs
  | [] => d
  end.
(** Chunk::path_, include/z5/filesystem/handle.hxx:273: ds.path() / key. *)
Definition chunk_at (key : string) : path := climb p (resolve key).

(** Chunk::create, include/z5/filesystem/handle.hxx:276-293: the directories on the way
    are made for nested chunks, exceptions are ignored. *)
Definition tree_create (k : key_config) (key : string) : act fsys unit := fun t =>
  if k_zarr k && negb (String.eqb (k_delim k) "/") then (t, Ok tt)
  else if fs_exists t (removelast (chunk_at key)) then (t, Ok tt)
  else (fst (fs_mkdirs (removelast (chunk_at key)) t), Ok tt).

(** store_detail::writeFile, include/z5/filesystem/store.hxx:39-49: the stream cannot be
    opened if there is no directory for the file or a directory of its name. *)
Definition tree_write_file (key : string) (b : bytes) : act fsys unit := fun t =>
  if fs_isdir t (removelast (chunk_at key)) && negb (fs_isdir t (chunk_at key))
  then ((fun q => if path_eqb q (chunk_at key) then Some (NBlob b) else t q), Ok tt)
  else (t, Throw ERuntime).

(** ChunkStore::write, include/z5/filesystem/store.hxx:75-80. *)
Definition tree_write (k : key_config) (key : string) (b : bytes) : act fsys unit :=
  do^ _ <- tree_create k key in tree_write_file key b.

(** The bytes of a file, None for directories. *)
Definition file_bytes (n : fnode) : option bytes :=
  match n with NDir => None | NDoc j => Some (dumped j) | NBlob b => Some b end.

(** ChunkStore::read, include/z5/filesystem/store.hxx:66-73, with readFile, lines 17-37:
    the size of a directory is no size of a buffer. *)
Definition tree_read (key : string) : act fsys (option bytes) := fun t =>
  (t, match t (chunk_at key) with
      | None => Ok None
      | Some n => match file_bytes n with Some b => Ok (Some b) | None => Throw ELogic end
      end).

(** fs::remove.  Simplified: a directory is not removed (an empty one would be). *)
Definition tree_remove (key : string) : act fsys unit := fun t =>
  match t (chunk_at key) with
  | Some NDir => (t, Throw EFilesystem)
  | _ => ((fun q => if path_eqb q (chunk_at key) then None else t q), Ok tt)
  end.

(** ChunkStore::erase, include/z5/filesystem/store.hxx:82-86. *)
Definition tree_erase (key : string) : act fsys unit := fun t =>
  if fs_exists t (chunk_at key) then tree_remove key t else (t, Ok tt).

(** filesystem::ChunkStore, include/z5/filesystem/store.hxx:56-133, with Chunk::exists and
    Chunk::remove of include/z5/filesystem/handle.hxx:307-317. *)
Definition tree_policy : policy fsys := {|
  p_exists key := fun t => (t, Ok (fs_exists t (chunk_at key)));
  p_read := tree_read;
  p_write := tree_write;
  p_erase := tree_erase;
  p_remove := tree_remove;
  p_headers := true;
  p_header key := fun t =>
    (t, match t (chunk_at key) with
        | Some n => match file_bytes n with Some b => read_varlen_from_header b | None => UB end
        | None => UB
        end)
|}.
End Tree.
