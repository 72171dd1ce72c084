(** Model of the calls that AttributeManager inherits from
    collections.abc.MutableMapping (src/python/module/z5py/attribute_manager.py:66):
    get, setdefault, popitem and clear, in terms of its own methods. *)
From Coq Require Import String.
From Verif Require Import M_Base M_Json M_Mode M_Fs M_Attributes M_PyGroup.
Import ListNotations.
Local Open Scope list_scope.

(** get(key, default) of Mapping: __getitem__, attribute_manager.py:78-80, the
    default for a KeyError. *)
Definition py_attr_get_or (s : fsys) (a : attr_manager) (k : string) (d : json) : outcome json :=
  let! l := py_attrs s a in
  Ok (match jlookup k l with Some v => v | None => d end).

(** setdefault(key, default) of MutableMapping: __getitem__, and for a KeyError
    __setitem__, attribute_manager.py:82-83. *)
Definition py_attr_setdefault (a : attr_manager) (k : string) (d : json) : fact json :=
  do* l <- freading (fun s => py_attrs s a) in
  match jlookup k l with
  | Some v => fret (Ok v)
  | None => do* _ <- py_attr_set a k d in fret (Ok d)
  end.

(** The calls of popitem in the loop of clear that succeed, with the names they
    took out: next(iter(self)), attribute_manager.py:107-109, then __getitem__ and
    __delitem__, lines 78-80 and 85-86.  Simplified: the iteration may start
    with any of the names. *)
Inductive py_attr_pops (a : attr_manager) : list string -> fsys -> fsys -> Prop :=
| pops_none s : py_attr_pops a [] s s
| pops_one k ks s s1 s2 l v :
    py_attrs s a = Ok l -> In k (map fst l) -> py_attr_pop a k s = (s1, Ok v) ->
    py_attr_pops a ks s1 s2 -> py_attr_pops a (k :: ks) s s2.

(** clear of MutableMapping: popitem until it raises KeyError, which it does when
    there is no name left; any other exception is passed on (no call it makes
    raises KeyError for a name that is there). *)
Inductive py_attr_clear (a : attr_manager) : fsys -> fsys -> outcome unit -> Prop :=
| clear_done ks s s' :
    py_attr_pops a ks s s' -> py_attrs s' a = Ok [] -> py_attr_clear a s s' (Ok tt)
| clear_unread ks s s' (o : outcome (list (string * json))) :
    py_attr_pops a ks s s' -> py_attrs s' a = o -> (forall l, o <> Ok l) ->
    py_attr_clear a s s' (let! _ := o in Ok tt)
| clear_stuck ks s s' s'' l k (o : outcome json) :
    py_attr_pops a ks s s' -> py_attrs s' a = Ok l -> In k (map fst l) ->
    py_attr_pop a k s' = (s'', o) -> (forall v, o <> Ok v) ->
    py_attr_clear a s s'' (let! _ := o in Ok tt).
