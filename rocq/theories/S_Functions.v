(** Specification of the functions over all chunks of a dataset. *)
From Verif Require Import M_Base M_Key M_Format M_Mode M_Dataset M_Sharded M_Functions S_Array S_Grid S_Dataset S_Access S_Sharded.

(** Number of elements with the value [v]. *)
Fixpoint occurrences (t : elem_type) (v : cell) (l : list cell) : N :=
  match l with
  | [] => 0
  | x :: r => (if elem_eq t x v then 1 else 0) + occurrences t v r
  end.

(** [v] is equal to one of the elements. *)
Definition member (t : elem_type) (v : cell) (l : list cell) : Prop := exists x, In x l /\ elem_eq t x v = true.

(** No two elements are equal. *)
Fixpoint distinct (t : elem_type) (l : list cell) : Prop :=
  match l with
  | [] => True
  | x :: r => ~ member t x r /\ distinct t r
  end.

(** The number a map has for the key [v], 0 without such a key. *)
Fixpoint mapped (t : elem_type) (m : list (cell * N)) (v : cell) : N :=
  match m with
  | [] => 0
  | (x, n) :: r => if elem_eq t x v then n else mapped t r v
  end.

(** The elements stored in a chunk. *)
Definition stored_values (r : option (bool * list cell)) : list cell :=
  match r with Some (_, data) => data | None => [] end.

(** Sum over a list of chunks. *)
Fixpoint sum_over (f : shape -> N) (cs : list shape) : N :=
  match cs with [] => 0 | c :: r => f c + sum_over f r end.

(** No NaN. *)
Definition comparable (t : elem_type) (l : list cell) : Prop := Forall (fun x => elem_eq t x x = true) l.

(** All elements are equal to each other, and to [value] if that is given. *)
Definition single_value (t : elem_type) (value : option cell) (l : list cell) : Prop :=
  l <> [] /\ (forall x y, In x l -> In y l -> elem_eq t x y = true) /\
  match value with None => True | Some v => forall x, In x l -> elem_eq t x v = true end.

(** The chunk of element [x] is stored and the element has the value [v]; [r] are the
    contents of the chunks. *)
Definition element_is (d : dataset) (r : shape -> option (bool * list cell)) (v : cell) (x : shape) : bool :=
  match r (chunk_of (d_chunks d) x) with
  | Some (_, data) =>
      elem_eq (d_type d) (cell_at data (rowmajor (stored_shape d (chunk_of (d_chunks d) x)) (pos_of (d_chunks d) x))) v
  | None => false
  end.

(** [st] is what chunk operations [ops] through the API left of a new dataset; the
    functions of this file are called on the dataset with the calls [cc]. *)
Inductive dataset_history : chunk_calls -> list chunk_op -> store -> Prop :=
| plain_history d ops st0 st : dataset_ok d -> can_write (d_mode d) = true -> Forall (op_ok d) ops ->
    (forall c, valid_chunk (d_shape d) (d_chunks d) c -> st0 (chunk_key (d_key d) c) = None) ->
    run_ops d ops st0 = (st, Ok tt) -> dataset_history (plain_calls d) ops st
| sharded_history sd ops st0 st : sharded_ok sd -> can_write (d_mode (sd_base sd)) = true ->
    Forall (fun o => op_ok (sd_base sd) o /\ fixed_op o) ops ->
    (forall c, valid_chunk (d_shape (sd_base sd)) (d_chunks (sd_base sd)) c -> st0 (shard_key sd c) = None) ->
    run_shard_ops sd ops st0 = (st, Ok tt) -> dataset_history (sharded_calls sd) ops st.

(** The chunks of the grid, each once. *)
Definition all_chunks (d : dataset) (cs : list shape) : Prop :=
  NoDup cs /\ forall c, In c cs <-> valid_chunk (d_shape d) (d_chunks d) c.
(** The elements of the array, each once. *)
Definition all_elements (d : dataset) (xs : list shape) : Prop :=
  NoDup xs /\ forall x, In x xs <-> in_shape (d_shape d) x.

(** Stored chunks have no elements outside of the array. *)
Definition no_padding (d : dataset) : Prop :=
  d_zarr d = false \/ all2 (fun s b => s mod b = 0) (d_shape d) (d_chunks d).
