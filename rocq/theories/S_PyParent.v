(** Vocabulary for parents, names and files of Python objects. *)
From Coq Require Import NArith ZArith List Bool String Ascii.
From Verif Require Import M_Base M_Json M_Mode M_Key S_Text M_Blocking M_Metadata M_Fs M_Attributes M_Container M_PyGroup S_PyGroup M_PyParent.
Import ListNotations.
Local Open Scope list_scope.

(** The object at an address. *)
Definition at_address (m : pyheap) (i : nat) (x : pyobj) : Prop := exists p, nth_error m i = Some (PyNode x p).
(** The mode that the object was opened with. *)
Definition obj_mode (x : pyobj) : mode := match x with PGroup g => h_mode (pg_handle g) | PDataset d => op_mode (pd_impl d) end.

(** The name given to a call. *)
Definition call_name (c : pcall) : option string :=
  match c with
  | COpen _ _ _ _ _ | CUnpickle _ => None
  | CGet _ n | CCreateGroup _ n | CRequireGroup _ n | CCreateDataset _ n _ | CRequireDataset _ n _ _ => Some n
  end.
(** Names like a/b/c: proper names with single slashes between them. *)
Definition proper_call (c : pcall) : Prop :=
  forall n, call_name c = Some n -> exists key, key <> [] /\ Forall proper key /\ n = name_of key.
(** Names without slashes, except for new datasets. *)
Definition stepwise_call (c : pcall) : Prop :=
  match c with
  | CCreateDataset _ n _ => exists key, key <> [] /\ Forall proper key /\ n = name_of key
  | _ => forall n, call_name c = Some n -> proper n
  end.

(** The absolute name of what is at [key] in a container. *)
Definition absolute_name (key : path) : string := match key with [] => "" | _ => ("/" ++ name_of key)%string end.

(** The object [x] is directly in the group [g], under the name [a]. *)
Definition directly_in (g : pygroup) (a : string) (x : pyobj) : Prop :=
  proper a /\ obj_path x = h_path (pg_handle g) ++ [a] /\ obj_name x = (pg_name g ++ "/" ++ a)%string /\
  obj_mode x = h_mode (pg_handle g).

(** The parent of what a call returns: the group that was asked (for datasets made
    with a name of several parts see [well_placed]). *)
Definition parent_of_result (m : pyheap) (c : pcall) (j : nat) : Prop :=
  match c with
  | COpen _ _ _ _ _ => py_parent m j = Some j
  | CGet i _ | CCreateGroup i _ | CRequireGroup i _ | CRequireDataset i _ _ _ => py_parent m j = Some i
  | CCreateDataset i n _ => slash_free n = true -> py_parent m j = Some i
  | CUnpickle i => True
  end.
(** The file of what a call returns: a new one for File(...), that of the group that was
    asked, or a new one like it for pickled objects. *)
Definition file_of_result (m : pyheap) (c : pcall) (j : nat) : Prop :=
  match c with
  | COpen h _ _ _ sep => py_file m j j /\ exists fmt, at_address m j (PGroup (PyGroup h "" sep fmt))
  | CGet i _ | CCreateGroup i _ | CRequireGroup i _ | CCreateDataset i _ _ | CRequireDataset i _ _ _ =>
      exists r, py_file m i r /\ py_file m j r
  | CUnpickle i =>
      exists r r' f f', py_file m i r /\ py_file m j r' /\ r' <> r /\ (i < r')%nat /\
        at_address m r (PGroup f) /\ at_address m r' (PGroup f') /\ pg_handle f' = pg_handle f /\ pg_sep f' = pg_sep f /\ pg_name f' = ""%string
  end.

(** The parent of an object (unless it is a file) is the group that it is directly in. *)
Definition well_placed (m : pyheap) (j : nat) : Prop :=
  exists x p, at_address m j x /\ py_parent m j = Some p /\ (p <> j -> exists g a, at_address m p (PGroup g) /\ directly_in g a x).
