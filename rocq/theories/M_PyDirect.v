(** Model of Dataset.read_direct and Dataset.write_direct,
    src/python/module/z5py/dataset.py:564-602, with numpy's basic indexing of the array
    in memory (external).

    Not modelled: conversion of element types (all arrays have the dataset's type),
    selections that are not tuples of slices. *)
From Coq Require Import ZArith.
From Verif Require Import M_Base M_Key M_Blocking M_View M_Format M_Mode M_Dataset M_Sharded M_Access M_Pool M_Parallel M_Python.
Import ListNotations.
Local Open Scope list_scope.

(** slice(start, stop, step). *)
Record slice := Slice { sl_start : option Z; sl_stop : option Z; sl_step : option Z }.

(** numpy (external): [count] positions from [a] on in steps of [k]. *)
Fixpoint np_steps (count : nat) (a k : Z) : list N :=
  match count with
  | O => []
  | S c => Z.to_N a :: np_steps c (a + k)%Z k
  end.
(** numpy (external): the positions that a slice selects of an axis of length [size],
    in their order; slice.indices of python. *)
Definition np_positions (size : N) (s : slice) : pyres (list N) :=
  let n := Z.of_N size in
  let k := match sl_step s with None => 1%Z | Some k => k end in
  let clip (lo hi x : Z) := let y := if (x <? 0)%Z then (x + n)%Z else x in Z.max lo (Z.min hi y) in
  if (k =? 0)%Z then PyRaise ValueError
  else if (0 <? k)%Z then
    let a := match sl_start s with None => 0%Z | Some a => clip 0%Z n a end in
    let b := match sl_stop s with None => n | Some b => clip 0%Z n b end in
    PyOk (np_steps (Z.to_nat ((b - a + k - 1) / k)) a k)
  else
    let a := match sl_start s with None => (n - 1)%Z | Some a => clip (-1)%Z (n - 1)%Z a end in
    let b := match sl_stop s with None => (-1)%Z | Some b => clip (-1)%Z (n - 1)%Z b end in
    PyOk (np_steps (Z.to_nat ((a - b - k - 1) / (- k))) a k).
(** numpy (external): the positions of all axes; axes without a slice are selected
    completely. *)
Fixpoint np_axes_positions (n : shape) (sel : list slice) : pyres (list (list N)) :=
  match n, sel with
  | [], [] => PyOk []
  | [], _ :: _ => PyRaise IndexError
  | m :: n', [] =>
      pbind (np_positions m (Slice None None None)) (fun l =>
      pbind (np_axes_positions n' []) (fun r => PyOk (l :: r)))
  | m :: n', s :: sel' =>
      pbind (np_positions m s) (fun l =>
      pbind (np_axes_positions n' sel') (fun r => PyOk (l :: r)))
  end.
(** numpy (external): the element of the array that is element [i] of the selection. *)
Definition np_at (pos : list (list N)) (i : shape) : shape := map2 (fun l x => nth (N.to_nat x) l 0%N) pos i.
(** numpy (external): where element [x] of an array of shape [n] in C order is. *)
Definition np_addr (n x : shape) : nat := N.to_nat (flat_offset x (c_strides n)).

(** numpy (external): arr[sel] for an array of shape [n] with elements [data] in C
    order. *)
Definition np_get (n : shape) (data : list cell) (sel : list slice) : pyres (shape * list cell) :=
  pbind (np_axes_positions n sel) (fun pos =>
    let m := map lenN pos in
    PyOk (m, map (fun i => nth (np_addr n (np_at pos i)) data []) (indices m))).

(** numpy (external): broadcasting of shape [m] to shape [n]; both reversed. *)
Fixpoint np_broadcasts (m n : shape) : bool :=
  match m, n with
  | [], _ => true
  | x :: m', [] => (x =? 1)%N && np_broadcasts m' []
  | x :: m', y :: n' => ((x =? y)%N || (x =? 1)%N) && np_broadcasts m' n'
  end.
(** numpy (external): the element of the value that belongs to element [i]; both
    reversed. *)
Fixpoint np_source (m i : shape) : shape :=
  match m, i with
  | [], _ => []
  | _ :: m', [] => 0%N :: np_source m' []
  | x :: m', y :: i' => (if (x =? 1)%N then 0%N else y) :: np_source m' i'
  end.
(** numpy (external): arr[sel] = value, with a value of shape [m] and elements [v]. *)
Definition np_set (n : shape) (data : list cell) (sel : list slice) (m : shape) (v : list cell) : pyres (list cell) :=
  pbind (np_axes_positions n sel) (fun pos =>
    let cnt := map lenN pos in
    if np_broadcasts (rev m) (rev cnt)
    then PyOk (fold_left (fun d i => set_nth (np_addr n (np_at pos i)) d
                                       (nth (np_addr m (rev (np_source (rev m) (rev i)))) v [])) (indices cnt) data)
    else PyRaise ValueError).

(** tuple(slice(0, sh) for sh in shape), dataset.py:578-581,596-599. *)
Definition whole (n : shape) : list slice := map (fun x => Slice (Some 0%Z) (Some (Z.of_N x)) None) n.

(** Arithmetic with None is a TypeError. *)
Fixpoint all_numbers (l : list (option Z)) : pyres (list Z) :=
  match l with
  | [] => PyOk []
  | None :: _ => PyRaise TypeError
  | Some x :: r => pbind (all_numbers r) (fun s => PyOk (x :: s))
  end.

(** Dataset.read_direct, src/python/module/z5py/dataset.py:564-584: the new elements of
    [dest]. *)
Definition py_read_direct (p : py_dataset) (fresh : N -> list cell) (n : shape) (dest : list cell)
    (source_sel dest_sel : option (list slice)) (st : store) : pyres (list cell) :=
  let ssel := match source_sel with None => whole (d_shape (pd_base p)) | Some s => s end in
  let dsel := match dest_sel with None => whole n | Some s => s end in
  pbind (all_numbers (map sl_start ssel)) (fun start =>
  pbind (all_numbers (map sl_stop ssel)) (fun stop =>
  pbind (py_read_subarray p fresh start stop st) (fun v =>
  match v with
  | PyArray m data => np_set n dest dsel m data
  | PyScalar c => np_set n dest dsel [] [c]
  end))).

(** Dataset.write_direct, src/python/module/z5py/dataset.py:586-602. *)
Definition py_write_direct (p : py_dataset) (n : shape) (source : list cell)
    (source_sel dest_sel : option (list slice)) (st : store) : store * pyres unit :=
  let dsel := match dest_sel with None => whole (d_shape (pd_base p)) | Some s => s end in
  let ssel := match source_sel with None => whole n | Some s => s end in
  match np_get n source ssel with
  | PyOk (m, data) => py_write_view p m data (map sl_start dsel) st
  | PyRaise e => (st, PyRaise e)
  | PyUB => (st, PyUB)
  end.
