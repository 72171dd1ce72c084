(** Model of the python layer: index normalisation and shape checks
    (src/python/module/z5py/shape_utils.py), item access of datasets
    (src/python/module/z5py/dataset.py) and the chunk and sub-array entry points of
    the extension module (src/python/lib/dataset.cxx).

    Not modelled: conversion of element types (all arrays have the dataset's type),
    numpy's memory errors, more than one thread (see M_Parallel). *)
From Coq Require Import ZArith.
From Verif Require Import M_Base M_Key M_Blocking M_View M_Format M_Mode M_Dataset M_Sharded M_Access.
Import ListNotations.
Local Open Scope list_scope.

(** Exceptions; those of the C++ library are translated by nanobind. *)
Inductive pyerr := ValueError | TypeError | IndexError | CppError (e : error).
(** The result of a python call. *)
Inductive pyres (A : Type) := PyOk (a : A) | PyRaise (e : pyerr) | PyUB.
Arguments PyOk {A}. Arguments PyRaise {A}. Arguments PyUB {A}.

(** Statements in sequence, an exception ends the function. *)
Definition pbind {A B} (x : pyres A) (f : A -> pyres B) : pyres B :=
  match x with PyOk a => f a | PyRaise e => PyRaise e | PyUB => PyUB end.
(** A call into the extension module. *)
Definition from_cpp {A} (x : outcome A) : pyres A :=
  match x with Ok a => PyOk a | Throw e => PyRaise (CppError e) | UB => PyUB end.

(** What can stand in an index: a number (after int()), a slice, "...", anything
    else. *)
Inductive item :=
| INum (i : Z)
| ISlice (start stop step : option Z)
| IEllipsis
| IOther.
(** ds[a, b, ...] or ds[a]. *)
Inductive index := ITuple (l : list item) | ISingle (i : item).

(** slice(start, stop) after normalisation. *)
Definition pslice := (option Z * Z)%type.

(** slice_to_start_stop, src/python/module/z5py/shape_utils.py:11-38. *)
Definition slice_to_start_stop (start stop step : option Z) (size : Z) : pyres pslice :=
  if negb (match step with None => true | Some k => (k =? 1)%Z end) then PyRaise ValueError
  else
    let first := match start with
                 | None => Some 0%Z
                 | Some a => if ((- size <=? a) && (a <? 0))%Z then Some (size + a)%Z
                             else if ((a <? - size) || (size <=? a))%Z then None
                             else Some a
                 end in
    match first with
    | None => PyOk (None, 0%Z)
    | Some a =>
        let b := match stop with
                 | None => size
                 | Some b => if (size <? b)%Z then size
                             else if (b <? 0)%Z then (size + b)%Z
                             else b
                 end in
        if ((b <? 1) || (b <=? a))%Z then PyOk (None, 0%Z) else PyOk (Some a, b)
    end.

(** int_to_start_stop, src/python/module/z5py/shape_utils.py:41-50. *)
Definition int_to_start_stop (i size : Z) : pyres pslice :=
  if ((- size <? i) && (i <? 0))%Z then PyOk (Some (i + size), i + size + 1)%Z
  else if ((size <=? i) || (i <? - size))%Z then PyRaise ValueError
  else PyOk (Some i, i + 1)%Z.

(** isinstance(item, type(Ellipsis)). *)
Definition is_ellipsis (i : item) : bool := match i with IEllipsis => true | _ => false end.

(** The while loop src/python/module/z5py/shape_utils.py:170-171; [rest] is
    len(slices_lst) - d - 1.  It ends after at most ndim rounds ([fuel]). *)
Fixpoint fill_up (fuel : nat) (rest : nat) (sh : list Z) (normalized : list pslice) : pyres (list pslice) :=
  if Nat.ltb (length normalized + rest) (length sh) then
    match fuel with
    | O => PyUB
    | S f =>
        match nth_error sh (length normalized) with
        | None => PyRaise IndexError
        | Some n => fill_up f rest sh (normalized ++ [(Some 0%Z, n)])
        end
    end
  else PyOk normalized.

(** The for loop src/python/module/z5py/shape_utils.py:159-173; [len] is
    len(slices_lst).  The subtraction cannot be negative, d counts the items before
    the ellipsis. *)
Fixpoint normalize_loop (items : list item) (len : nat) (sh : list Z)
    (normalized : list pslice) (found : bool) (squeeze : list nat) : pyres (list pslice * list nat) :=
  match items with
  | [] => PyOk (normalized, squeeze)
  | it :: r =>
      let d := length normalized in
      match it with
      | ISlice a b k =>
          match nth_error sh d with
          | None => PyRaise IndexError
          | Some n => pbind (slice_to_start_stop a b k n) (fun p =>
                        normalize_loop r len sh (normalized ++ [p]) found squeeze)
          end
      | INum i =>
          match nth_error sh d with
          | None => PyRaise IndexError
          | Some n => pbind (int_to_start_stop i n) (fun p =>
                        normalize_loop r len sh (normalized ++ [p]) found (squeeze ++ [d]))
          end
      | IEllipsis =>
          if found then PyRaise ValueError
          else pbind (fill_up (length sh) (len - d - 1) sh normalized) (fun n =>
                 normalize_loop r len sh n true squeeze)
      | IOther => PyRaise TypeError
      end
  end.

(** normalize_slices, src/python/module/z5py/shape_utils.py:127-174. *)
Definition normalize_slices (ix : index) (sh : list Z) : pyres (list pslice * list nat) :=
  match ix with
  | ISingle IOther => PyRaise TypeError
  | _ =>
      let l := match ix with ITuple l => l | ISingle i => [i] end in
      if Nat.ltb (length sh) (length (filter (fun i => negb (is_ellipsis i)) l)) then PyRaise TypeError
      else
        let l := if Nat.ltb (length l) (length sh) && negb (existsb is_ellipsis l)
                 then l ++ [IEllipsis] else l in
        normalize_loop l (length l) sh [] false []
  end.

(** index_to_roi, src/python/module/z5py/dataset.py:459-480. *)
Definition index_to_roi (ix : index) (sh : list Z) : pyres (list (option Z) * list Z * list nat) :=
  pbind (normalize_slices ix sh) (fun r =>
    let '(n, squeeze) := r in
    PyOk (map fst n,
          map (fun p => match fst p with None => 0%Z | Some a => (snd p - a)%Z end) n,
          squeeze)).

(** nanobind's conversion of a python sequence to std::vector<std::size_t>: None,
    negative and too large numbers are a TypeError. *)
Definition to_size (x : option Z) : option N :=
  match x with
  | Some z => if ((0 <=? z) && (z <? Z.of_N W64))%Z then Some (Z.to_N z) else None
  | None => None
  end.
(** The same for all entries, see [to_size]. *)
Fixpoint to_sizes (l : list (option Z)) : pyres shape :=
  match l with
  | [] => PyOk []
  | x :: r =>
      match to_size x with
      | None => PyRaise TypeError
      | Some n => pbind (to_sizes r) (fun s => PyOk (n :: s))
      end
  end.

(** The C++ object of a dataset: generic::Dataset or generic::ShardedDataset. *)
Inductive py_dataset := PyPlain (d : dataset) | PyShards (sd : sharded).
(** The members both have in common. *)
Definition pd_base (p : py_dataset) : dataset :=
  match p with PyPlain d => d | PyShards sd => sd_base sd end.

(** The dispatch of readSubarray, include/z5/multiarray/array_access.hxx:157-181. *)
Definition pd_read (p : py_dataset) (st : store) (ov : view) (off : shape) (out : list cell)
    : outcome (list cell) :=
  match p with
  | PyPlain d => read_subarray d st ov off out
  | PyShards sd => sh_read_subarray sd st ov off out
  end.
(** The dispatch of writeSubarray and writeScalar,
    include/z5/multiarray/array_access.hxx:496-521, broadcast.hxx:18-50. *)
Definition pd_write (p : py_dataset) (src : source) (off n : shape) : action unit :=
  match p with
  | PyPlain d => write_request d src off n
  | PyShards sd => sh_write_request sd src off n
  end.

(** types::ShapeType offset(roiBeginIter, roiBeginIter + ndim),
    include/z5/multiarray/array_access.hxx:163,503, broadcast.hxx:26-27: reading
    [k] entries from the vector. *)
Definition take_sizes (k : nat) (l : shape) : outcome shape :=
  if Nat.ltb (length l) k then UB else Ok (firstn k l).

(** readPySubarray, src/python/lib/dataset.cxx:61-68, on a C-contiguous array.
    Simplified: strides of axes of length 1 are those of the C order. *)
Definition py_read_view (p : py_dataset) (st : store) (n : shape) (out : list cell)
    (roi_begin : list (option Z)) : pyres (list cell) :=
  pbind (to_sizes roi_begin) (fun b =>
  from_cpp (let! off := take_sizes (length n) b in pd_read p st (make_view n) off out)).

(** writePySubarray, src/python/lib/dataset.cxx:51-58. *)
Definition py_write_view (p : py_dataset) (n : shape) (data : list cell)
    (roi_begin : list (option Z)) (st : store) : store * pyres unit :=
  match to_sizes roi_begin with
  | PyOk b =>
      match take_sizes (length n) b with
      | Ok off => let (st', r) := pd_write p (FromView (make_view n) data) off n st in (st', from_cpp r)
      | Throw e => (st, PyRaise (CppError e))
      | UB => (st, PyUB)
      end
  | PyRaise e => (st, PyRaise e)
  | PyUB => (st, PyUB)
  end.

(** write_scalar and writePyScalar, src/python/lib/dataset.cxx:71-99,285-334.
    Simplified: the value is already of the dataset's type. *)
Definition py_write_scalar (p : py_dataset) (roi_begin : list (option Z)) (roi_shape : list Z) (v : cell)
    (st : store) : store * pyres unit :=
  match to_sizes roi_begin, to_sizes (map Some roi_shape) with
  | PyOk b, PyOk n =>
      match take_sizes (length (d_shape (pd_base p))) b, take_sizes (length (d_shape (pd_base p))) n with
      | Ok off, Ok n => let (st', r) := pd_write p (FromScalar v) off n st in (st', from_cpp r)
      | Throw e, _ | _, Throw e => (st, PyRaise (CppError e))
      | UB, _ | _, UB => (st, PyUB)
      end
  | PyRaise e, _ | _, PyRaise e => (st, PyRaise e)
  | PyUB, _ | _, PyUB => (st, PyUB)
  end.

(** A numpy scalar, or a C-contiguous array with its elements. *)
Inductive pyvalue := PyScalar (c : cell) | PyArray (n : shape) (data : list cell).

(** out.squeeze(axes): ValueError unless these axes have length 1. *)
Fixpoint np_squeeze (k : nat) (axes : list nat) (n : shape) : pyres shape :=
  match n with
  | [] => PyOk []
  | x :: r =>
      if existsb (Nat.eqb k) axes
      then if (x =? 1)%N then np_squeeze (S k) axes r else PyRaise ValueError
      else pbind (np_squeeze (S k) axes r) (fun s => PyOk (x :: s))
  end.

(** Dataset.__getitem__, src/python/module/z5py/dataset.py:483-515; [fresh] is what
    np.empty returns. *)
Definition py_getitem (p : py_dataset) (fresh : N -> list cell) (ix : index) (st : store) : pyres pyvalue :=
  pbind (index_to_roi ix (map Z.of_N (d_shape (pd_base p)))) (fun roi =>
  let '(roi_begin, zn, squeeze) := roi in
  if existsb (fun z => z <? 0)%Z zn then PyRaise ValueError             (* np.empty *)
  else
    let n := map Z.to_N zn in
    let out := fresh (fold_left N.mul n 1%N) in
    pbind (if existsb (N.eqb 0) n then PyOk out else py_read_view p st n out roi_begin) (fun out =>
    if Nat.eqb (length squeeze) (length n) then
      match out with [] => PyRaise IndexError | c :: _ => PyOk (PyScalar c) end
    else match squeeze with
         | [] => PyOk (PyArray n out)
         | _ => pbind (np_squeeze 0 squeeze n) (fun n' => PyOk (PyArray n' out))
         end)).

(** The while loop of rectify_shape, src/python/module/z5py/shape_utils.py:69-76; it
    removes an entry per round ([fuel]). *)
Fixpoint important (fuel : nat) (l : shape) : shape :=
  match fuel with
  | O => l
  | S f =>
      if Nat.ltb 1 (length l) then
        if (hd 0%N l =? 1)%N then important f (tl l)
        else if (last l 0%N =? 1)%N then important f (removelast l)
        else l
      else l
  end.

(** sliding_window, src/python/module/z5py/shape_utils.py:53-58. *)
Definition sliding_window (l : shape) (k : nat) : list shape :=
  if Nat.ltb (length l) k then []
  else map (fun i => firstn k (skipn i l)) (seq 0 (length l - k + 1)).

(** The for loop of rectify_shape, src/python/module/z5py/shape_utils.py:86-99: false
    after break.  window[0] and window[-1] of an empty window are an IndexError, but
    an empty window equals an empty important_shape. *)
Fixpoint rectify_loop (important_shape : shape) (is_leading : bool) (windows : list shape) : bool :=
  match windows with
  | [] => true
  | w :: r =>
      if shape_eqb w important_shape then
        if is_leading then rectify_loop important_shape false r else false
      else if is_leading then
        if negb (hd 1%N w =? 1)%N then false else rectify_loop important_shape is_leading r
      else
        if negb (last w 1%N =? 1)%N then false else rectify_loop important_shape is_leading r
  end.

(** rectify_shape, src/python/module/z5py/shape_utils.py:61-103, on a C-contiguous
    array: reshaping keeps the elements in place and fails if their number differs. *)
Definition rectify_shape (n required : shape) : pyres unit :=
  if shape_eqb n required then PyOk tt
  else
    let i := important (length n) n in
    if Nat.ltb (length required) (length i) then PyRaise ValueError
    else if rectify_loop i true (sliding_window required (length i)) then
      if (fold_left N.mul n 1 =? fold_left N.mul required 1)%N then PyOk tt else PyRaise ValueError
    else PyRaise ValueError.

(** Dataset.__setitem__, src/python/module/z5py/dataset.py:518-562. *)
Definition py_setitem (p : py_dataset) (ix : index) (v : pyvalue) (st : store) : store * pyres unit :=
  match index_to_roi ix (map Z.of_N (d_shape (pd_base p))) with
  | PyRaise e => (st, PyRaise e)
  | PyUB => (st, PyUB)
  | PyOk (roi_begin, zn, _) =>
      if existsb (Z.eqb 0) zn then (st, PyOk tt)
      else
        match v with
        | PyScalar c => py_write_scalar p roi_begin zn c st
        | PyArray n data =>
            let required := map Z.to_N zn in
            match rectify_shape n required with
            | PyOk _ => py_write_view p required data roi_begin st
            | PyRaise e => (st, PyRaise e)
            | PyUB => (st, PyUB)
            end
        end
  end.

(** Dataset.read_subarray, src/python/module/z5py/dataset.py:622-638. *)
Definition py_read_subarray (p : py_dataset) (fresh : N -> list cell) (start stop : list Z) (st : store)
    : pyres pyvalue :=
  let zn := map2 (fun a b => (b - a)%Z) start stop in
  if existsb (fun z => z <? 0)%Z zn then PyRaise ValueError             (* np.empty *)
  else
    let n := map Z.to_N zn in
    pbind (py_read_view p st n (fresh (fold_left N.mul n 1%N)) (map Some start)) (fun out =>
    PyOk (PyArray n out)).

(** Dataset.write_subarray, src/python/module/z5py/dataset.py:605-619. *)
Definition py_write_subarray (p : py_dataset) (start : list Z) (n : shape) (data : list cell) (st : store)
    : store * pyres unit :=
  py_write_view p n data (map Some start) st.

(** chunkExists, checkVarlenChunk, readChunk and writeChunk of the two dataset
    classes, include/z5/generic/dataset.hxx, sharded_dataset.hxx:49-104,129-133. *)
Definition pd_exists (p : py_dataset) (st : store) (c : shape) : outcome bool :=
  match p with PyPlain d => chunk_exists d st c | PyShards sd => sh_chunk_exists sd st c end.
(** checkVarlenChunk, see [pd_exists]. *)
Definition pd_varlen (p : py_dataset) (st : store) (c : shape) : outcome (bool * N) :=
  match p with
  | PyPlain d => check_varlen_chunk d st c
  | PyShards sd => let! n := get_chunk_size (sd_base sd) c in Ok (false, n)
  end.
(** readChunk, see [pd_exists]. *)
Definition pd_read_chunk (p : py_dataset) (st : store) (c : shape) (out : list cell)
    : outcome (bool * list cell) :=
  match p with PyPlain d => read_chunk d st c out | PyShards sd => sh_read_chunk sd st c out end.
(** writeChunk, see [pd_exists]. *)
Definition pd_write_chunk (p : py_dataset) (c : shape) (data : list cell) (varlen : bool) (size : N)
    : action unit :=
  match p with PyPlain d => write_chunk d c data varlen size | PyShards sd => sh_write_chunk sd c data varlen end.

(** Dataset.read_chunk, src/python/module/z5py/dataset.py:667-679, and readPyChunk,
    src/python/lib/dataset.cxx:102-148; [fresh] is what new T[size] returns.
    isZarr() and getChunkShape are the same for both dataset classes. *)
Definition py_read_chunk (p : py_dataset) (fresh : N -> list cell) (ids : list Z) (st : store)
    : pyres (option (shape * list cell)) :=
  pbind (to_sizes (map Some ids)) (fun c =>
  from_cpp (
    let! ex := pd_exists p st c in
    if negb ex then Ok None
    else
      let! vl := pd_varlen p st c in
      let! n := if fst vl then Ok [snd vl]
                else if d_zarr (pd_base p) then Ok (d_chunks (pd_base p))
                else get_chunk_shape (pd_base p) c in
      let! r := pd_read_chunk p st c (fresh (prodw n)) in
      Ok (Some (n, snd r)))).

(** Dataset.write_chunk, src/python/module/z5py/dataset.py:654-665, and writePyChunk,
    src/python/lib/dataset.cxx:151-173; [data] are the elements of the array. *)
Definition py_write_chunk (p : py_dataset) (ids : list Z) (data : list cell) (varlen : bool) (st : store)
    : store * pyres unit :=
  let d := pd_base p in
  if d_zarr d && varlen then (st, PyRaise (CppError ERuntime))
  else
    match to_sizes (map Some ids) with
    | PyRaise e => (st, PyRaise e)
    | PyUB => (st, PyUB)
    | PyOk c =>
        let (st', r) :=
          (do! _ <- pure (if varlen then Ok tt
                          else
                            let! expected := if d_zarr d then Ok (prodw (d_chunks d)) else get_chunk_size d c in
                            if (lenN data =? expected)%N then Ok tt else Throw ERuntime) in
           pd_write_chunk p c data varlen (if varlen then lenN data else 0)) st in
        (st', from_cpp r)
    end.
