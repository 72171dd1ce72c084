(** Specification of sub-array access: a dataset is an n-dimensional array. *)
From Verif Require Import M_Base M_Text M_Key M_View M_Format M_Mode M_Dataset M_Access
  S_Array S_Grid S_Bytes S_Text S_Format S_Dataset.

(** Element [i] of a buffer. *)
Definition cell_at (data : list cell) (i : N) : cell := nth (N.to_nat i) data [].

(** Element [i] (an index vector) of the array handed to a write. *)
Definition source_value (src : source) (i : shape) : cell :=
  match src with
  | FromView v data => cell_at data (v_off v + lin (v_strides v) i)
  | FromScalar x => x
  end.

(** The input array has shape [n], element size [w], any strides, and lies inside
    of its buffer. *)
Definition source_ok (w : N) (n : shape) (src : source) : Prop :=
  match src with
  | FromView v data =>
      v_shape v = n /\ List.length (v_strides v) = List.length n /\
      (forall i, in_shape n i -> v_off v + lin (v_strides v) i < lenN data) /\
      Forall (fun e => lenN e = w /\ Forall is_byte e) data
  | FromScalar x => lenN x = w /\ Forall is_byte x
  end.

(** A request inside of the array, with extents that getCoordinatesInRoi can
    handle (C04, C05). *)
Definition region_ok (d : dataset) (off n : shape) : Prop :=
  valid_region (d_shape d) off n /\ small_request (d_chunks d) n.

(** Operations on a dataset: sub-array or scalar write, write and removal of single
    chunks. *)
Inductive array_op :=
| AWrite (off n : shape) (src : source)
| AChunk (c : shape) (data : list cell)
| ARemove (c : shape).

(** Allowed arguments. *)
Definition array_op_ok (d : dataset) (o : array_op) : Prop :=
  match o with
  | AWrite off n src => region_ok d off n /\ source_ok (t_width (d_type d)) n src
  | AChunk c data =>
      valid_chunk (d_shape d) (d_chunks d) c /\
      buffer_of (t_width (d_type d)) (prod (stored_shape d c)) data
  | ARemove c => valid_chunk (d_shape d) (d_chunks d) c
  end.

(** Chunk of an element, and its position in the chunk. *)
Definition chunk_of (b x : shape) : shape := map2 N.div x b.
Definition pos_of (b x : shape) : shape := map2 N.modulo x b.

(** What an operation does to an array. *)
Definition apply_op (d : dataset) (o : array_op) (a : shape -> cell) : shape -> cell :=
  fun x =>
    match o with
    | AWrite off n src => if in_boxb off n x then source_value src (vsub x off) else a x
    | AChunk c data =>
        if list_eq_dec N.eq_dec (chunk_of (d_chunks d) x) c
        then cell_at data (rowmajor (stored_shape d c) (pos_of (d_chunks d) x)) else a x
    | ARemove c =>
        if list_eq_dec N.eq_dec (chunk_of (d_chunks d) x) c then d_fill d else a x
    end.

(** What a history does to an array. *)
Fixpoint apply_ops (d : dataset) (ops : list array_op) (a : shape -> cell) : shape -> cell :=
  match ops with
  | [] => a
  | o :: r => apply_ops d r (apply_op d o a)
  end.

(** Running a history through the API. *)
Definition run_array_op (d : dataset) (o : array_op) : action unit :=
  match o with
  | AWrite off n src => write_request d src off n
  | AChunk c data => write_chunk d c data false 0
  | ARemove c => remove_chunk d c
  end.
Definition run_array_ops (d : dataset) (ops : list array_op) : action unit :=
  foldS (fun _ o => run_array_op d o) ops tt.

(** An output array: any strides, inside of its buffer, elements do not overlap. *)
Definition out_view_ok (ov : view) (size : N) : Prop :=
  List.length (v_strides ov) = List.length (v_shape ov) /\
  (forall i, in_shape (v_shape ov) i -> v_off ov + lin (v_strides ov) i < size) /\
  (forall i j, in_shape (v_shape ov) i -> in_shape (v_shape ov) j ->
     lin (v_strides ov) i = lin (v_strides ov) j -> i = j).

(** The input is an array of shape [n] whose elements are all [x]. *)
Definition const_source (n : shape) (src : source) (x : cell) : Prop :=
  match src with
  | FromView v data => v_shape v = n /\ List.length (v_strides v) = List.length n /\
      forall i, in_shape n i -> getN data (v_off v + lin (v_strides v) i) = Ok x
  | FromScalar y => y = x
  end.

(** A history of calls whose exceptions are caught by the caller: the store
    afterwards and the outcomes. *)
Fixpoint run_caught {A} (calls : list (action A)) (st : store) : store * list (outcome A) :=
  match calls with
  | [] => (st, [])
  | a :: r => let (st1, o) := a st in let (st2, os) := run_caught r st1 in (st2, o :: os)
  end.

(** Every call that modifies chunks of a plain dataset, with arbitrary arguments. *)
Inductive plain_call :=
| CallWrite (off n : shape) (src : source)
| CallChunk (ids : shape) (data : list cell) (varlen : bool) (size : N)
| CallRemove (ids : shape).
Definition run_call (d : dataset) (c : plain_call) : action unit :=
  match c with
  | CallWrite off n src => write_request d src off n
  | CallChunk ids data vl k => write_chunk d ids data vl k
  | CallRemove ids => remove_chunk d ids
  end.
