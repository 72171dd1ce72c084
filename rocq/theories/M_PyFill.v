(** The fill value given to create_dataset from python. *)
From Coq Require Import ZArith String.
From Verif Require Import M_Base M_Key M_Bytes M_Format M_Double M_Json M_Mode M_Dataset M_Metadata M_Fs M_Container M_Number M_PyGroup.
Import ListNotations.
Local Open Scope list_scope.

(** The element that elements of missing chunks have: fillValue_(static_cast<T>(...)),
    include/z5/dataset.hxx:176, narrowed to float for float32, as bytes.  Simplified: no
    complex types (python cannot create them, src/python/module/z5py/dataset.py:295). *)
Definition fill_cell (t : dtype) (f : fill_elem) : cell :=
  match f with
  | FInt z => int_cell t z
  | FReal x => float_cell (match t with DT_float32 => true | _ => false end) x
  end.

(** The arguments of create_dataset with the fill value as double. *)
Definition with_fill (a : ds_args) (x : dbl) : ds_args :=
  DsArgs (a_shape a) (a_dtype a) (a_data a) (a_chunks a) (a_comp a) x (a_shards a) (a_enc a) (a_opts a).

(** Dataset._create_dataset, src/python/module/z5py/dataset.py:249-342, with a number as
    fill value: the extension module takes a double (src/python/lib/factory.cxx:27).
    Simplified: the error for a number that is none comes before the ones of the other
    arguments. *)
Definition py_create_in_number (g : pygroup) (name : string) (v : pynumber) (a : ds_args) : fact pydataset :=
  match load_double v with
  | Some x => py_create_in g name (with_fill a x)
  | None => fret (Throw EInvalidArgument)
  end.

(** Group.create_dataset, src/python/module/z5py/group.py:198-259. *)
Definition py_create_number (g : pygroup) (name : string) (v : pynumber) (a : ds_args) : fact pydataset :=
  do* _ <- py_may_create g name in
  let parts := split_slash (lstrip name) "" in
  match removelast parts with
  | [] => py_create_in_number g name v a
  | front =>
      do* g' <- py_require_groups g front in
      do* _ <- py_may_create g' (last parts ""%string) in
      py_create_in_number g' (last parts ""%string) v a
  end.
