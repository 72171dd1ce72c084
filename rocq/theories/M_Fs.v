(** The file system as z5 uses it for containers: directories and json documents
    (include/z5/filesystem/handle.hxx, include/z5/filesystem/attributes.hxx). *)
From Coq Require Import String.
From Verif Require Import M_Base M_Json.
Import ListNotations.
Local Open Scope list_scope.
Local Open Scope N_scope.

(** fs::path: the names along the path.  Simplified: the keys given to handles
    consist of plain names ("a/b" is two of them), no ".", ".." or leading "/". *)
Definition path := list string.

(** What is found at a path: a directory, a file that parses as json (represented
    by the value that parsing yields), or any other file. *)
Inductive fnode := NDir | NDoc (j : json) | NBlob (b : bytes).
Notation fsys := (path -> option fnode).

(** A call on the file system: the file system afterwards, also when it throws.
    Simplified: the operating system refuses no permitted operation (no full disk,
    no permission errors). *)
Notation fact A := (fsys -> fsys * outcome A).
Definition fbind {A B} (m : fact A) (f : A -> fact B) : fact B := fun s =>
  match m s with
  | (s', Ok a) => f a s'
  | (s', Throw e) => (s', Throw e)
  | (s', UB) => (s', UB)
  end.
Notation "'do*' x '<-' a 'in' b" := (fbind a (fun x => b))
  (at level 200, x pattern, a at level 100, b at level 200, right associativity).
Definition fret {A} (o : outcome A) : fact A := fun s => (s, o).
Definition freading {A} (f : fsys -> outcome A) : fact A := fun s => (s, f s).

(** Equality of paths; [below p q]: q is p or lies below it. *)
Fixpoint below (p q : path) : bool :=
  match p, q with
  | [], _ => true
  | a :: r, b :: s => String.eqb a b && below r s
  | _ :: _, [] => false
  end.
Definition path_eqb (p q : path) : bool := below p q && below q p.

(** fs::exists *)
Definition fs_exists (s : fsys) (p : path) : bool :=
  match s p with None => false | Some _ => true end.
(** fs::is_directory *)
Definition fs_isdir (s : fsys) (p : path) : bool :=
  match s p with Some NDir => true | _ => false end.

(** All paths on the way to p, p included. *)
Fixpoint prefixes (p : path) : list path :=
  match p with
  | [] => [[]]
  | a :: r => [] :: map (cons a) (prefixes r)
  end.

(** createDir, include/z5/filesystem/handle.hxx:29-31: fs::create_directories
    makes every missing directory on the way; a file on the way is an error. *)
Definition fs_mkdirs (p : path) : fact unit := fun s =>
  if existsb (fun q => fs_exists s q && negb (fs_isdir s q)) (prefixes p)
  then (s, Throw EFilesystem)
  else ((fun q => if below q p then Some NDir else s q), Ok tt).

(** removeDir, include/z5/filesystem/handle.hxx:64-66: fs::remove_all. *)
Definition fs_remove_all (p : path) : fact unit := fun s =>
  ((fun q => if below p q then None else s q), Ok tt).

(** JsonIO::read, include/z5/filesystem/attributes.hxx:33-42: None is false; a
    file that is no json is a parse_error. *)
Definition read_doc (s : fsys) (base : path) (name : string) : outcome (option json) :=
  match s (base ++ [name]) with
  | None => Ok None
  | Some (NDoc j) => Ok (Some j)
  | Some _ => Throw EJson
  end.

(** io.read(name, j): j is kept if there is no such document. *)
Definition read_doc_or (s : fsys) (base : path) (name : string) (j : json) : outcome json :=
  let! o := read_doc s base name in Ok (match o with Some x => x | None => j end).

(** metadata_detail::readMetadata, include/z5/filesystem/metadata.hxx:18-22: no
    check for existence, parsing an absent file is a parse_error. *)
Definition parse_doc (s : fsys) (base : path) (name : string) : outcome json :=
  match s (base ++ [name]) with Some (NDoc j) => Ok j | _ => Throw EJson end.

(** JsonIO::write / writePretty, include/z5/filesystem/attributes.hxx:45-56: the
    file is replaced; the stream reports no error, so a missing directory or a
    directory in the place of the file means that nothing happens.  Simplified:
    the text of the document is represented by what parsing it yields (strings
    are valid UTF-8). *)
Definition write_doc (base : path) (name : string) (j : json) : fact unit := fun s =>
  if fs_isdir s base && negb (fs_isdir s (base ++ [name]))
  then ((fun q => if path_eqb q (base ++ [name]) then Some (NDoc (reparse j)) else s q), Ok tt)
  else (s, Ok tt).
