(** Model of chunk and shard files on a disk with failing accesses (I/O errors, full
    disk, missing permissions): filesystem::ChunkStore over such a disk, an instance
    of M_Store. *)
From Verif Require Import M_Base M_Text M_Key M_N5Header M_Dataset M_Store.

(** What happens to one access.  [Fails n] is a failing access; if it is a write then
    [n] bytes were written.  [Unsaved n]: the access works, but if it closes a file
    that was written then only [n] bytes are saved: the rest was in a buffer, and
    writing it on close failed. *)
Inductive disk_fate := Works | Fails (n : nat) | Unsaved (n : nat).

(** The files of the dataset and the fates of the next accesses; further accesses
    work. *)
Record disk := Disk { disk_files : store; disk_fates : list disk_fate }.

(** The fate of the next access. *)
Definition next_fate (s : disk) : disk * disk_fate :=
  match disk_fates s with
  | [] => (s, Works)
  | f :: r => (Disk (disk_files s) r, f)
  end.

(** An access that does not change the files; it throws [e] if it fails. *)
Definition access {A} (e : error) (answer : store -> A) : act disk A := fun s =>
  let '(s', f) := next_fate s in
  match f with
  | Fails _ => (s', Throw e)
  | _ => (s', Ok (answer (disk_files s')))
  end.

(** Changing a file. *)
Definition put_file (s : disk) (key : string) (v : option bytes) : disk :=
  Disk (set_key (disk_files s) key v) (disk_fates s).

(** fs::exists, which throws fs::filesystem_error if the status cannot be found out. *)
Definition disk_exists (key : string) : act disk bool :=
  access EFilesystem (fun st => match st key with None => false | Some _ => true end).

(** readFile, include/z5/filesystem/store.hxx:17-37: opening, asking for the size, which
    is -1 if that fails, so that resize throws std::length_error, and reading.
    Simplified: nobody else changes the files, so that a file that exists is there when
    it is opened. *)
Definition read_file (key : string) : act disk bytes :=
  do^ _ <- access ERuntime (fun _ => tt) in
  do^ _ <- access ELogic (fun _ => tt) in
  access ERuntime (fun st => match st key with None => [] | Some b => b end).

(** ChunkStore::read, include/z5/filesystem/store.hxx:66-73. *)
Definition disk_read (key : string) : act disk (option bytes) :=
  do^ ex <- disk_exists key in
  if negb ex then aret (Ok None)
  else do^ b <- read_file key in aret (Ok (Some b)).

(** writeFile, include/z5/filesystem/store.hxx:39-49: opening, which truncates the file,
    writing, checking the stream and closing the file, which is not checked.
    Simplified: what is left behind by a failing write are the first bytes of the new
    contents. *)
Definition write_file (key : string) (b : bytes) : act disk unit :=
  do^ _ <- access ERuntime (fun _ => tt) in                            (* is_open *)
  fun s =>
    let '(s1, f) := next_fate s in
    match f with
    | Fails n => (put_file s1 key (Some (firstn n b)), Throw ERuntime)   (* good *)
    | _ =>
        let '(s2, f2) := next_fate s1 in                               (* close *)
        match f2 with
        | Unsaved n => (put_file s2 key (Some (firstn n b)), Ok tt)
        | _ => (put_file s2 key (Some b), Ok tt)
        end
    end.

(** ChunkStore::write, include/z5/filesystem/store.hxx:75-80, with Chunk::create
    (include/z5/filesystem/handle.hxx:276-293): fs::exists of the parent directory may
    throw; errors of fs::create_directories are ignored, and then the file cannot be
    opened.  See [store_write] for the delimiters. *)
Definition disk_write (k : key_config) (key : string) (b : bytes) : act disk unit :=
  if k_zarr k && negb (String.eqb (k_delim k) "/") then
    if slash_in key then aret (Throw ERuntime) else write_file key b
  else do^ _ <- access EFilesystem (fun _ => tt) in write_file key b.

(** fs::remove; removing a missing file is no error. *)
Definition disk_remove (key : string) : act disk unit := fun s =>
  let '(s', f) := next_fate s in
  match f with
  | Fails _ => (s', Throw EFilesystem)
  | _ => (put_file s' key None, Ok tt)
  end.

(** ChunkStore::erase, include/z5/filesystem/store.hxx:82-86. *)
Definition disk_erase (key : string) : act disk unit :=
  do^ ex <- disk_exists key in
  if ex then disk_remove key else fun s => (put_file s key None, Ok tt).

(** readVarlenFromHeader, include/z5/filesystem/store.hxx:98-124: the stream is not
    checked, so that after a failure the variables are not initialised.  Simplified:
    one access. *)
Definition disk_header (key : string) : act disk (option N) := fun s =>
  let '(s', f) := next_fate s in
  match f with
  | Fails _ => (s', UB)
  | _ => (s', match disk_files s' key with None => UB | Some b => read_varlen_from_header b end)
  end.

(** filesystem::ChunkStore with Chunk::exists, Chunk::remove
    (include/z5/filesystem/handle.hxx:307-317). *)
Definition disk_policy : policy disk := {|
  p_exists := disk_exists;
  p_read := disk_read;
  p_write := disk_write;
  p_erase := disk_erase;
  p_remove := disk_remove;
  p_headers := true;
  p_header := disk_header
|}.
