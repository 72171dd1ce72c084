(** Specification of the user attributes of a node: a table from names to values,
    which writes extend and removals shorten. *)
From Coq Require Import String.
From Verif Require Import M_Base M_Json M_Mode M_Fs M_Attributes.
Import ListNotations.
Local Open Scope list_scope.
Local Open Scope N_scope.

Definition table := string -> option json.

(** The calls that change attributes. *)
Inductive aop := AWrite (j : json) | ARemove (a : string).

(** An object has one value per key (the entries of a C++ json object are a
    map). *)
Definition aop_ok (o : aop) : Prop :=
  match o with AWrite (JObj l) => NoDup (map fst l) | _ => True end.

(** Names that may not be written or removed through a handle: in n5 containers
    the format version of the root and the metadata of a dataset. *)
Definition protected (k : hkind) (is_zarr : bool) : list string :=
  if is_zarr then []
  else match k with
       | HFile => ["n5"]
       | HGroup => []
       | HDataset => ["dimensions"; "blockSize"; "dataType"; "compressionType"; "compression"]
       end%string.

(** What a call does to the table; None: it is refused and changes nothing.
    Values are stored as json text, see [reparse]. *)
Definition table_step (prot : list string) (o : aop) (t : table) : option table :=
  match o with
  | AWrite (JObj l) =>
      if existsb (fun a => existsb (String.eqb a) (map fst l)) prot then None
      else Some (fun a => match jlookup a l with Some v => Some (reparse v) | None => t a end)
  | AWrite JNull | AWrite (JArr []) => Some t
  | AWrite _ => None
  | ARemove a =>
      if existsb (String.eqb a) prot then None
      else Some (fun b => if String.eqb b a then None else t b)
  end.

(** A history of calls: which of them succeed, and the table at the end. *)
Fixpoint table_run (prot : list string) (ops : list aop) (t : table) : list bool * table :=
  match ops with
  | [] => ([], t)
  | o :: r =>
      match table_step prot o t with
      | Some t' => let (bs, t2) := table_run prot r t' in (true :: bs, t2)
      | None => let (bs, t2) := table_run prot r t in (false :: bs, t2)
      end
  end.

(** The same history through a handle; exceptions are caught by the caller. *)
Definition run_aop (k : hkind) (m : mode) (p : path) (o : aop) : fact unit :=
  match o with
  | AWrite j => write_attributes k m p j
  | ARemove a => remove_attribute k m p a
  end.
Definition is_ok {A} (o : outcome A) : bool := match o with Ok _ => true | _ => false end.
Fixpoint api_run (k : hkind) (m : mode) (p : path) (ops : list aop) (s : fsys) : list bool * fsys :=
  match ops with
  | [] => ([], s)
  | o :: r =>
      let (s1, res) := run_aop k m p o s in
      let (bs, s2) := api_run k m p r s1 in (is_ok res :: bs, s2)
  end.

(** The document that holds the attributes. *)
Definition attr_file (is_v3 is_zarr : bool) : string :=
  (if is_v3 then "zarr.json" else if is_zarr then ".zattrs" else "attributes.json")%string.

(** Documents are in the form that parsing yields. *)
Definition parsed (j : json) : Prop := reparse j = j.

(** A node whose attributes can be handled: a directory in which the attribute
    document, if there is one, is a json object (in zarr.json, whose entry
    "attributes", if there is one, is an object).  An n5 dataset has the
    document. *)
Definition attr_doc_ok (k : hkind) (is_v3 is_zarr : bool) (n : option fnode) : Prop :=
  match n with
  | None => is_v3 = false /\ (k = HDataset -> is_zarr = true)
  | Some (NDoc (JObj l)) =>
      parsed (JObj l) /\
      (is_v3 = true -> match jlookup "attributes" l with Some (JObj _) | None => True | _ => False end)
  | _ => False
  end.
Record attr_node (k : hkind) (s : fsys) (p : path) (is_v3 is_zarr : bool) : Prop := {
  an_dir : s p = Some NDir;
  an_zarr : handle_is_zarr k s p = Ok is_zarr;
  an_v3 : is_v3 = (is_zarr && fs_exists s (p ++ ["zarr.json"%string]));
  an_doc : attr_doc_ok k is_v3 is_zarr (s (p ++ [attr_file is_v3 is_zarr]))
}.

(** The table a value read by [read_attributes] shows. *)
Definition shows (j : json) (t : table) : Prop := forall a, jfind a j = t a.
