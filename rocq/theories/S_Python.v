(** Specification of the python layer: numpy's basic indexing. *)
From Coq Require Import ZArith.
From Verif Require Import M_Base M_Key M_View M_Format M_Mode M_Dataset M_Sharded M_Access M_Python
  S_Array S_Grid S_Bytes S_Format S_Dataset S_Access S_Sharded.
Import ListNotations.
Local Open Scope list_scope.

(** * Which elements an index selects *)

(** What an entry of the index selects of an axis: [count] elements from [first] on;
    the axis is dropped from the result if the entry is a number. *)
Record pick := Pick { p_first : N; p_count : N; p_dropped : bool }.

(** An end of a slice of an axis of length [n]: negative numbers count from the
    end, everything is cut to the axis. *)
Definition np_bound (n x : Z) : Z := (if x <? 0 then Z.max 0 (x + n) else Z.min x n)%Z.

(** None: not a valid index, or a step that z5py does not support. *)
Definition np_axis (n : N) (i : item) : option pick :=
  match i with
  | INum i =>
      if ((- Z.of_N n <=? i) && (i <? Z.of_N n))%Z
      then Some (Pick (Z.to_N (if i <? 0 then i + Z.of_N n else i)%Z) 1 true) else None
  | ISlice a b k =>
      if match k with None => true | Some k => (k =? 1)%Z end then
        let lo := match a with None => 0%Z | Some a => np_bound (Z.of_N n) a end in
        let hi := match b with None => Z.of_N n | Some b => np_bound (Z.of_N n) b end in
        Some (Pick (Z.to_N lo) (Z.to_N (hi - lo)) false)
      else None
  | _ => None
  end.

(** "..." stands for as many ":" as are missing, and is implied at the end. *)
Definition full_slice : item := ISlice None None None.
Definition entries (l : list item) : nat := length (filter (fun i => negb (is_ellipsis i)) l).
Definition np_expand (l : list item) (ndim : nat) : option (list item) :=
  if Nat.ltb ndim (entries l) then None
  else match length (filter is_ellipsis l) with
       | O => Some (l ++ repeat full_slice (ndim - entries l))
       | S O => Some (flat_map (fun i => if is_ellipsis i then repeat full_slice (ndim - entries l) else [i]) l)
       | _ => None
       end.

Fixpoint np_axes (sh : shape) (l : list item) : option (list pick) :=
  match sh, l with
  | [], [] => Some []
  | n :: sr, i :: r =>
      match np_axis n i, np_axes sr r with
      | Some p, Some ps => Some (p :: ps)
      | _, _ => None
      end
  | _, _ => None
  end.

Definition index_items (ix : index) : list item := match ix with ITuple l => l | ISingle i => [i] end.
Definition np_select (sh : shape) (ix : index) : option (list pick) :=
  match np_expand (index_items ix) (length sh) with
  | Some l => np_axes sh l
  | None => None
  end.

(** The selected box. *)
Definition np_first (ps : list pick) : shape := map p_first ps.
Definition np_count (ps : list pick) : shape := map p_count ps.
(** The shape of the result. *)
Definition np_shape (ps : list pick) : shape := map p_count (filter (fun p => negb (p_dropped p)) ps).
(** The element of the array that is element [j] of the result. *)
Fixpoint np_position (ps : list pick) (j : shape) : shape :=
  match ps with
  | [] => []
  | Pick f _ true :: r => f :: np_position r j
  | Pick f _ false :: r =>
      match j with
      | x :: j' => (f + x)%N :: np_position r j'
      | [] => f :: np_position r []
      end
  end.

(** Entries z5py treats differently: the number -n, and slices that start before
    the axis. *)
Definition odd_entry (n : N) (i : item) : Prop :=
  match i with
  | INum i => (i = - Z.of_N n)%Z
  | ISlice (Some a) _ _ => (a < - Z.of_N n)%Z
  | _ => False
  end.
Definition regular_index (sh : shape) (ix : index) : Prop :=
  forall l, np_expand (index_items ix) (length sh) = Some l -> Forall2 (fun n i => ~ odd_entry n i) sh l.

(** [c] is returned for [x]: the same, or for floats another zero if the fill value
    is a zero. *)
Definition reads_as (d : dataset) (c x : cell) : Prop :=
  same_value d c x /\ (t_float (d_type d) = false -> c = x).
(** [v] is what numpy returns for the picks of an array with elements [a]. *)
Definition np_value (d : dataset) (a : shape -> cell) (ps : list pick) (v : pyvalue) : Prop :=
  match v with
  | PyScalar c => Forall (fun p => p_dropped p = true) ps /\ reads_as d c (a (np_first ps))
  | PyArray n data =>
      Exists (fun p => p_dropped p = false) ps /\ n = np_shape ps /\ lenN data = prod n /\
      forall j, in_shape n j -> exists c, getN data (rowmajor n j) = Ok c /\ reads_as d c (a (np_position ps j))
  end.

(** The roi that is computed: nothing if an axis is empty, else the numpy box. *)
Definition same_box (ps : list pick) (roi_begin : list (option Z)) (zn : list Z) : Prop :=
  zn = map Z.of_N (np_count ps) /\
  length roi_begin = length ps /\
  forall k p, nth_error ps k = Some p -> (0 < p_count p)%N ->
    nth_error roi_begin k = Some (Some (Z.of_N (p_first p))).
(** Positions of the dropped axes. *)
Fixpoint dropped_axes (k : nat) (ps : list pick) : list nat :=
  match ps with
  | [] => []
  | p :: r => if p_dropped p then k :: dropped_axes (S k) r else dropped_axes (S k) r
  end.

(** * Shapes that can be assigned *)

(** The same shape after adding or removing leading and trailing axes of length 1. *)
Definition same_core (n m : shape) : Prop :=
  exists core a b c d, n = repeat 1%N a ++ core ++ repeat 1%N b /\ m = repeat 1%N c ++ core ++ repeat 1%N d.

(** Shapes that z5py accepts beyond these: no axis order is kept, but the number of
    elements is.  [k] is the number of axes of [n] without its leading and trailing
    ones. *)
Definition odd_match (n m : shape) : Prop :=
  exists core a b lead rest, n = repeat 1%N a ++ core ++ repeat 1%N b /\ (2 <= length core)%nat /\
    hd 1%N core <> 1%N /\ last core 1%N <> 1%N /\
    m = repeat 1%N lead ++ rest /\ (length rest + 1 = length core)%nat /\ (1 <= lead)%nat /\ prod n = prod m.

(** What z5py accepts. *)
Definition accepted (n m : shape) : Prop :=
  n = m \/ (n <> [] /\ n = repeat 1%N (length n) /\ m = [1%N]) \/
  (Exists (fun x => x <> 1%N) n /\ same_core n m) \/ odd_match n m.

(** * Histories of assignments *)

Inductive py_op :=
| PySet (ix : index) (v : pyvalue)
| PyWrite (start : list Z) (n : shape) (data : list cell)
| PyChunk (ids : list Z) (data : list cell).
Definition run_py_op (p : py_dataset) (o : py_op) (st : store) : store * pyres unit :=
  match o with
  | PySet ix v => py_setitem p ix v st
  | PyWrite start n data => py_write_subarray p start n data st
  | PyChunk ids data => py_write_chunk p ids data false st
  end.
Fixpoint run_py_ops (p : py_dataset) (ops : list py_op) (st : store) : store * pyres unit :=
  match ops with
  | [] => (st, PyOk tt)
  | o :: r =>
      match run_py_op p o st with
      | (st', PyOk _) => run_py_ops p r st'
      | (st', e) => (st', e)
      end
  end.

(** An array of shape [n] in memory, of the dataset's type. *)
Definition array_data (d : dataset) (n : shape) (data : list cell) : Prop :=
  (prod n < W64)%N /\ buffer_of (t_width (d_type d)) (prod n) data.

(** Valid indices and values that are accepted. *)
Definition py_op_ok (d : dataset) (o : py_op) : Prop :=
  match o with
  | PySet ix v =>
      exists ps, np_select (d_shape d) ix = Some ps /\ regular_index (d_shape d) ix /\
        small_request (d_chunks d) (np_count ps) /\
        match v with
        | PyScalar c => lenN c = t_width (d_type d) /\ Forall is_byte c
        | PyArray n data =>
            array_data d n data /\ accepted n (np_count ps)
        end
  | PyWrite start n data =>
      exists off, start = map Z.of_N off /\ region_ok d off n /\ array_data d n data
  | PyChunk ids data =>
      exists c, ids = map Z.of_N c /\ valid_chunk (d_shape d) (d_chunks d) c /\
        buffer_of (t_width (d_type d)) (prod (stored_shape d c)) data
  end.

(** What an assignment does: the elements of the box become the elements of the
    value, in C order. *)
Definition np_assign (first count : shape) (v : shape -> cell) (a : shape -> cell) : shape -> cell :=
  fun x => if in_boxb first count x then v (vsub x first) else a x.
Definition value_at (count : shape) (v : pyvalue) (i : shape) : cell :=
  match v with PyScalar c => c | PyArray _ data => cell_at data (rowmajor count i) end.
Definition py_apply (d : dataset) (o : py_op) (a : shape -> cell) : shape -> cell :=
  match o with
  | PySet ix v =>
      match np_select (d_shape d) ix with
      | Some ps => np_assign (np_first ps) (np_count ps) (value_at (np_count ps) v) a
      | None => a
      end
  | PyWrite start n data => np_assign (map Z.to_N start) n (fun i => cell_at data (rowmajor n i)) a
  | PyChunk ids data =>
      let c := map Z.to_N ids in
      np_assign (chunk_origin (d_chunks d) c) (chunk_extent (d_shape d) (d_chunks d) c)
        (fun i => cell_at data (rowmajor (stored_shape d c) i)) a
  end.
Fixpoint py_applies (d : dataset) (ops : list py_op) (a : shape -> cell) : shape -> cell :=
  match ops with [] => a | o :: r => py_applies d r (py_apply d o a) end.

(** A new dataset. *)
Definition layout_of (p : py_dataset) : layout :=
  match p with PyPlain d => Plain d | PyShards sd => Shards sd end.
Definition new_dataset (p : py_dataset) (st : store) : Prop := layout_empty (layout_of p) st.
Definition py_dataset_ok (p : py_dataset) : Prop := layout_ok (layout_of p).

(** * Histories of chunk writes *)

(** Calls of write_chunk: chunk, elements, varlen. *)
Definition chunk_call := (shape * list cell * bool)%type.
Definition call_chunk (k : chunk_call) : shape := fst (fst k).
Definition call_data (k : chunk_call) : list cell := snd (fst k).
(** Any number of elements of the dataset's type, for a chunk of the dataset. *)
Definition call_ok (d : dataset) (k : chunk_call) : Prop :=
  valid_chunk (d_shape d) (d_chunks d) (call_chunk k) /\
  buffer_of (t_width (d_type d)) (lenN (call_data k)) (call_data k) /\
  (lenN (call_data k) < 2 ^ 32)%N /\ (lenN (call_data k) * t_width (d_type d) < W64)%N /\
  (snd k = true -> lossless (lenN (call_data k) * t_width (d_type d)) (d_codec d)).
(** The number of elements fits. *)
Definition call_fits (d : dataset) (k : chunk_call) : bool :=
  if snd k then negb (d_zarr d) else (lenN (call_data k) =? prod (stored_shape d (call_chunk k)))%N.
Definition call_op (k : chunk_call) : chunk_op :=
  if snd k then OpVarlen (call_chunk k) (call_data k) else OpWrite (call_chunk k) (call_data k).
(** Exceptions are caught by the caller. *)
Fixpoint run_chunk_calls (p : py_dataset) (l : list chunk_call) (st : store) : store * list (pyres unit) :=
  match l with
  | [] => (st, [])
  | k :: r =>
      let (st1, o) := py_write_chunk p (map Z.of_N (call_chunk k)) (call_data k) (snd k) st in
      let (st2, os) := run_chunk_calls p r st1 in (st2, o :: os)
  end.

(** * Arbitrary indices *)

(** Chunks and arrays of at most 2^31 elements per axis. *)
Definition moderate (d : dataset) : Prop :=
  all2 (fun b n => b <= 2 ^ 31 /\ n <= 2 ^ 31)%N (d_chunks d) (d_shape d) /\ (prod (d_shape d) < W64)%N.
(** A value of the dataset's type. *)
Definition value_ok (d : dataset) (v : pyvalue) : Prop :=
  match v with
  | PyScalar c => lenN c = t_width (d_type d) /\ Forall is_byte c
  | PyArray n data => array_data d n data
  end.
(** Assignments, exceptions are caught by the caller. *)
Fixpoint run_sets (p : py_dataset) (l : list (index * pyvalue)) (st : store) : store * list (pyres unit) :=
  match l with
  | [] => (st, [])
  | (ix, v) :: r =>
      let (st1, o) := py_setitem p ix v st in
      let (st2, os) := run_sets p r st1 in (st2, o :: os)
  end.
