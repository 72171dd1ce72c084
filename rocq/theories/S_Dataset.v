(** Specification of datasets as maps from chunk ids to data and as n-dimensional
    arrays, independent of the access code of the model. *)
From Verif Require Import M_Base M_Text M_Key M_Format M_Mode M_Dataset S_Array S_Grid S_Bytes
  S_Text S_Format.

(** What the code needs of a dataset: sizes that size_t can hold, a fill value of
    the element type, a codec that is lossless for its chunks, chunk file names that the file system can
    tell apart, and for n5 extents that its header can hold. *)
Record dataset_ok (d : dataset) : Prop := {
  do_dims : dims_ok (d_shape d) (d_chunks d);
  do_width : 0 < t_width (d_type d);
  do_bytes : prod (d_chunks d) * t_width (d_type d) < W64;
  do_fill : lenN (d_fill d) = t_width (d_type d) /\ Forall is_byte (d_fill d);
  do_codec : lossless (prod (d_chunks d) * t_width (d_type d)) (d_codec d);
  do_sep : good_separator (k_delim (d_key d));
  do_path : k_delim (d_key d) = "/"%string \/ slash_free (k_delim (d_key d)) = true;
  do_header : d_zarr d = false ->
    lenN (d_shape d) < 65536 /\ Forall (fun n => n < 2 ^ 32) (d_chunks d)
}.

(** The shape in which a chunk is stored: zarr pads to the chunk shape, n5 clips. *)
Definition stored_shape (d : dataset) (c : shape) : shape :=
  if d_zarr d then d_chunks d else chunk_extent (d_shape d) (d_chunks d) c.

(** All elements compare equal to the fill value. *)
Definition all_fill (d : dataset) (data : list cell) : bool :=
  forallb (fun v => elem_eq (d_type d) v (d_fill d)) data.

(** Chunk operations that modify a dataset. *)
Inductive chunk_op :=
| OpWrite (c : shape) (data : list cell)      (* write_chunk *)
| OpVarlen (c : shape) (data : list cell)     (* write_chunk with varlen size |data| *)
| OpRemove (c : shape).                       (* remove_chunk *)

(** Which arguments the API allows. *)
Definition op_ok (d : dataset) (o : chunk_op) : Prop :=
  let w := t_width (d_type d) in
  match o with
  | OpWrite c data =>
      valid_chunk (d_shape d) (d_chunks d) c /\ buffer_of w (prod (stored_shape d c)) data
  | OpVarlen c data =>
      d_zarr d = false /\ valid_chunk (d_shape d) (d_chunks d) c /\
      buffer_of w (lenN data) data /\ lenN data < 2 ^ 32 /\ lenN data * w < W64 /\ lossless (lenN data * w) (d_codec d)
  | OpRemove c => valid_chunk (d_shape d) (d_chunks d) c
  end.

(** Chunk the operation is about. *)
Definition op_chunk (o : chunk_op) : shape :=
  match o with OpWrite c _ | OpVarlen c _ | OpRemove c => c end.

(** The contents a chunk has after the operation: varlen flag and elements. *)
Definition op_result (d : dataset) (o : chunk_op) : option (bool * list cell) :=
  match o with
  | OpWrite _ data => if all_fill d data then None else Some (false, data)
  | OpVarlen _ data => match data with [] => None | _ => Some (true, data) end
  | OpRemove _ => None
  end.

(** The contents of chunk [c] after a history: those of the last operation on it. *)
Fixpoint last_result (d : dataset) (ops : list chunk_op) (c : shape) (init : option (bool * list cell))
    : option (bool * list cell) :=
  match ops with
  | [] => init
  | o :: r =>
      last_result d r c (if list_eq_dec N.eq_dec (op_chunk o) c then op_result d o else init)
  end.

(** Values that C++ cannot tell apart from each other and the fill value; for
    integers this is equality. *)
Definition same_value (d : dataset) (a b : cell) : Prop :=
  a = b \/ (elem_eq (d_type d) a (d_fill d) = true /\ elem_eq (d_type d) b (d_fill d) = true).

(** Running a history through the API. *)
Definition run_op (d : dataset) (o : chunk_op) : action unit :=
  match o with
  | OpWrite c data => write_chunk d c data false 0
  | OpVarlen c data => write_chunk d c data true (lenN data)
  | OpRemove c => remove_chunk d c
  end.
Definition run_ops (d : dataset) (ops : list chunk_op) : action unit :=
  foldS (fun _ o => run_op d o) ops tt.
