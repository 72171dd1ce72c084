(** Specification of the object store backend. *)
From Verif Require Import M_Base M_Text M_View M_Bytes M_Format M_Dataset M_Sharded M_Access M_Store M_S3 S_Text.
Local Open Scope string_scope.

(** There is an object with this key. *)
Definition held (s : s3) (key : string) : Prop := exists b, lookup (objects s) key = Some b.

(** The object belongs to the node with this name: its key continues the name behind
    a "/"; everything belongs to the node without a name. *)
Definition inside (name key : string) : Prop := name = "" \/ exists r, key = name ++ "/" ++ r.

(** The key of an object or node in a node. *)
Definition child (name c : string) : string := if String.eqb name "" then c else name ++ "/" ++ c.

(** Names along a path, and the key they make. *)
Definition plain_name (c : string) : Prop := c <> "" /\ slash_free c = true.
Definition key_of (p : list string) : string := String.concat "/" p.

(** No request fails. *)
Definition reliable (s : s3) : Prop := Forall (fun f => f = Served) (fates s).
(** No request to delete several objects spares some of them: it fails or succeeds as
    a whole. *)
Definition deletes_all (s : s3) : Prop := forall ks, ~ In (Spared ks) (fates s).

(** ** Calls on a dataset, for both backends *)

Inductive ds_call :=
| KWrite (ids : shape) (data : list cell)          (* write_chunk *)
| KVarlenWrite (ids : shape) (data : list cell) (n : N)
| KRead (ids : shape) (out : list cell)            (* read_chunk into a buffer *)
| KRaw (ids : shape)                               (* read_raw_chunk *)
| KExists (ids : shape)                            (* chunk_exists *)
| KRemove (ids : shape)                            (* remove_chunk *)
| KWriteArray (src : source) (off n : shape)       (* write_subarray, write_scalar *)
| KReadArray (ov : view) (off : shape) (out : list cell).   (* read_subarray *)

(** What a call returns. *)
Inductive answer := AUnit | ACells (varlen : bool) (l : list cell) | ABytes (b : bytes) | ABool (b : bool).

Definition omap {A B} (f : A -> B) (o : outcome A) : outcome B := let! a := o in Ok (f a).
Definition amap {S A B} (f : A -> B) (a : act S A) : act S B := fun s => (fst (a s), omap f (snd (a s))).

(** A call on a plain dataset of the file system: the model of the other properties. *)
Definition fs_call (d : dataset) (c : ds_call) : act store answer :=
  match c with
  | KWrite ids data => amap (fun _ => AUnit) (write_chunk d ids data false 0)
  | KVarlenWrite ids data n => amap (fun _ => AUnit) (write_chunk d ids data true n)
  | KRead ids out => fun st => (st, omap (fun r => ACells (fst r) (snd r)) (read_chunk d st ids out))
  | KRaw ids => fun st => (st, omap ABytes (read_raw_chunk d st ids))
  | KExists ids => fun st => (st, omap ABool (chunk_exists d st ids))
  | KRemove ids => amap (fun _ => AUnit) (remove_chunk d ids)
  | KWriteArray src off n => amap (fun _ => AUnit) (write_request d src off n)
  | KReadArray ov off out => fun st => (st, omap (ACells false) (read_subarray d st ov off out))
  end.
(** The same for a sharded dataset. *)
Definition fs_sh_call (sd : sharded) (c : ds_call) : act store answer :=
  match c with
  | KWrite ids data => amap (fun _ => AUnit) (sh_write_chunk sd ids data false)
  | KVarlenWrite ids data _ => amap (fun _ => AUnit) (sh_write_chunk sd ids data true)
  | KRead ids out => fun st => (st, omap (fun r => ACells (fst r) (snd r)) (sh_read_chunk sd st ids out))
  | KRaw ids => fun st => (st, omap ABytes (sh_read_raw_chunk sd st ids))
  | KExists ids => fun st => (st, omap ABool (sh_chunk_exists sd st ids))
  | KRemove ids => amap (fun _ => AUnit) (sh_remove_chunk sd ids)
  | KWriteArray src off n => amap (fun _ => AUnit) (sh_write_request sd src off n)
  | KReadArray ov off out => fun st => (st, omap (ACells false) (sh_read_subarray sd st ov off out))
  end.
(** The same over any chunk store. *)
Definition call {S} (P : policy S) (d : dataset) (c : ds_call) : act S answer :=
  match c with
  | KWrite ids data => amap (fun _ => AUnit) (g_write_chunk P d ids data false 0)
  | KVarlenWrite ids data n => amap (fun _ => AUnit) (g_write_chunk P d ids data true n)
  | KRead ids out => amap (fun r => ACells (fst r) (snd r)) (g_read_chunk P d ids out)
  | KRaw ids => amap ABytes (g_read_raw_chunk P d ids)
  | KExists ids => amap ABool (g_chunk_exists P d ids)
  | KRemove ids => amap (fun _ => AUnit) (g_remove_chunk P d ids)
  | KWriteArray src off n => amap (fun _ => AUnit) (g_write_request P d src off n)
  | KReadArray ov off out => amap (ACells false) (g_read_subarray P d ov off out)
  end.
Definition sh_call {S} (P : policy S) (sd : sharded) (c : ds_call) : act S answer :=
  match c with
  | KWrite ids data => amap (fun _ => AUnit) (g_sh_write_chunk P sd ids data false)
  | KVarlenWrite ids data _ => amap (fun _ => AUnit) (g_sh_write_chunk P sd ids data true)
  | KRead ids out => amap (fun r => ACells (fst r) (snd r)) (g_sh_read_chunk P sd ids out)
  | KRaw ids => amap ABytes (g_sh_read_raw_chunk P sd ids)
  | KExists ids => amap ABool (g_sh_chunk_exists P sd ids)
  | KRemove ids => amap (fun _ => AUnit) (g_sh_remove_chunk P sd ids)
  | KWriteArray src off n => amap (fun _ => AUnit) (g_sh_write_request P sd src off n)
  | KReadArray ov off out => amap (ACells false) (g_sh_read_subarray P sd ov off out)
  end.

(** A history of calls: what each of them returned or threw; a failing call does not
    end the history. *)
Fixpoint history {S C A} (run : C -> act S A) (cs : list C) (s : S) : S * list (outcome A) :=
  match cs with
  | [] => (s, [])
  | c :: r => let '(s1, a) := run c s in let '(s2, l) := history run r s1 in (s2, a :: l)
  end.

(** The objects of the dataset are the files of the directory, under the same keys. *)
Definition mirrors (name : string) (st : store) (s : s3) : Prop :=
  forall key, st key = lookup (objects s) (name ++ "/" ++ key).
(** Everything outside of the dataset is as it was. *)
Definition others_same (name : string) (s s' : s3) : Prop :=
  forall k, ~ (exists r, k = name ++ "/" ++ r) -> lookup (objects s') k = lookup (objects s) k.

(** The same bucket, from now on without failures. *)
Definition quiet (s : s3) : s3 := S3 (objects s) [].
(** Calls for one chunk that do not ask for its existence. *)
Definition single_chunk (c : ds_call) : Prop :=
  match c with KExists _ | KWriteArray _ _ _ | KReadArray _ _ _ => False | _ => True end.

(** The objects of a dataset under their keys. *)
Definition files (name : string) (s : s3) : store := fun key => lookup (objects s) (name ++ "/" ++ key).
(** The process dies, or the service cannot be reached any more: requests are answered
    up to some point, and refused from then on; the one in between may still have
    taken effect. *)
Definition cut_off (s : s3) : Prop := exists k last n, In last [Refused; Lost] /\
  fates s = (List.repeat Served k ++ last :: List.repeat Refused n)%list.
