(** Python groups as mappings: `class Group(Mapping)`,
    src/python/module/z5py/group.py:19.  Group defines __iter__, __len__,
    __contains__ and __getitem__; get, keys, items, values and == come from
    Python's collections.abc.Mapping, whose documented definitions are modelled. *)
From Coq Require Import ZArith Ascii String.
From Verif Require Import M_Base M_Double M_Json M_Mode M_Key M_Metadata M_Fs M_Attributes M_Container M_PyGroup.
Import ListNotations.
Local Open Scope list_scope.
Local Open Scope N_scope.

Section Mapping.
  (** Handle::keys, include/z5/filesystem/handle.hxx:124-131: the names of the
      sub-directories, in the order of fs::directory_iterator. *)
  Variable ls : path -> list string.

  (** Group.__iter__, src/python/module/z5py/group.py:55-58. *)
  Definition py_iter (g : pygroup) : list string := ls (h_path (pg_handle g)).

  (** Group.__len__, src/python/module/z5py/group.py:60-61. *)
  Definition py_len (g : pygroup) : nat := List.length (ls (h_path (pg_handle g))).

  (** Mapping.get(key, default): `try: return self[key]; except KeyError: return
      default`, with Group.__getitem__, src/python/module/z5py/group.py:77-96, whose
      only KeyError is that of line 89 (errors of the C++ code are no KeyErrors).
      None is the default. *)
  Definition py_get (s : fsys) (g : pygroup) (name : string) : outcome (option pyobj) :=
    if negb (py_contains s g name) then Ok None
    else let! x := py_getitem s g name in Ok (Some x).

  (** list(ItemsView): `for key in self._mapping: yield (key, self._mapping[key])`,
      over Group.__iter__ and Group.__getitem__, group.py:55-58,77-96. *)
  Fixpoint items_of (s : fsys) (g : pygroup) (names : list string) : outcome (list (string * pyobj)) :=
    match names with
    | [] => Ok []
    | n :: r => let! x := py_getitem s g n in let! l := items_of s g r in Ok ((n, x) :: l)
    end.
  Definition py_items (s : fsys) (g : pygroup) : outcome (list (string * pyobj)) := items_of s g (py_iter g).

  (** list(ValuesView): `for key in self._mapping: yield self._mapping[key]`, over
      Group.__iter__ and Group.__getitem__, group.py:55-58,77-96. *)
  Fixpoint values_of (s : fsys) (g : pygroup) (names : list string) : outcome (list pyobj) :=
    match names with
    | [] => Ok []
    | n :: r => let! x := py_getitem s g n in let! l := values_of s g r in Ok (x :: l)
    end.
  Definition py_values (s : fsys) (g : pygroup) : outcome (list pyobj) := values_of s g (py_iter g).

  (** The lookup of a name in the dict made of the items. *)
  Fixpoint item_at (n : string) (l : list (string * pyobj)) : option pyobj :=
    match l with
    | [] => None
    | (m, x) :: r => if String.eqb m n then Some x else item_at n r
    end.

  (** The comparison of two dicts of the same size: every name of the first must be
      in the second with an equal value, up to the first that is not.  The values are
      fresh objects (every lookup makes one, group.py:91-96); Dataset, dataset.py:50,
      has no __eq__, so two Dataset objects are never equal. [eq] compares groups. *)
  Fixpoint items_equal (eq : pygroup -> pygroup -> outcome bool) (l l' : list (string * pyobj)) : outcome bool :=
    match l with
    | [] => Ok true
    | (n, x) :: r =>
        match item_at n l' with
        | None => Ok false
        | Some y =>
            let! e := match x, y with PGroup u, PGroup v => eq u v | _, _ => Ok false end in
            if e then items_equal eq r l' else Ok false
        end
    end.

  (** Mapping.__eq__: `dict(self.items()) == dict(other.items())`, for
      class Group(Mapping), src/python/module/z5py/group.py:19.  [depth] bounds the
      recursion; deeper than that is a RecursionError. *)
  Fixpoint py_eq (depth : nat) (s : fsys) (g g' : pygroup) : outcome bool :=
    match depth with
    | O => Throw ERuntime
    | S d =>
        let! l := py_items s g in
        let! l' := py_items s g' in
        if Nat.eqb (List.length l) (List.length l') then items_equal (py_eq d s) l l' else Ok false
    end.
End Mapping.
