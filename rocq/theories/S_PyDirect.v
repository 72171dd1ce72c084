(** Specification of direct copies between datasets and arrays in memory. *)
From Coq Require Import ZArith.
From Verif Require Import M_Base M_Key M_View M_Format M_Mode M_Dataset M_Sharded M_Access M_Python M_PyDirect
  S_Array S_Grid S_Bytes S_Format S_Dataset S_Access S_Sharded S_Python.
Import ListNotations.
Local Open Scope list_scope.
Local Open Scope N_scope.

(** a:b for an axis: [m] elements from [a] on. *)
Definition axis_slice (s : slice) (a m : N) : Prop :=
  sl_start s = Some (Z.of_N a) /\ sl_stop s = Some (Z.of_N (a + m)) /\ (sl_step s = None \/ sl_step s = Some 1%Z).
(** One slice a:b per axis that select the box [off, off + cnt) of an array of shape
    [n]; None selects everything. *)
Definition box_selection (sel : option (list slice)) (n off cnt : shape) : Prop :=
  match sel with
  | None => off = map (fun _ => 0) n /\ cnt = n
  | Some l => length l = length off /\ length cnt = length off /\
      forall k s a m, nth_error l k = Some s -> nth_error off k = Some a -> nth_error cnt k = Some m -> axis_slice s a m
  end.

(** [dest'] is the array [dest] of shape [n] with the elements of [a] from [off] on in
    the box [off', off' + cnt). *)
Definition copied_into (d : dataset) (a : shape -> cell) (off : shape) (n off' cnt : shape) (dest dest' : list cell) : Prop :=
  lenN dest' = lenN dest /\
  forall x, in_shape n x -> exists c, getN dest' (rowmajor n x) = Ok c /\
    if in_boxb off' cnt x then reads_as d c (a (vadd off (vsub x off'))) else getN dest (rowmajor n x) = Ok c.

(** Histories with direct writes; for those, the boxes of the array in memory (from
    [off'] on) and of the dataset (from [off] on) and their shape. *)
Inductive direct_op :=
| DUsual (o : py_op)
| DWrite (n : shape) (source : list cell) (source_sel dest_sel : option (list slice)) (off' off cnt : shape).
Definition run_direct_op (p : py_dataset) (o : direct_op) (st : store) : store * pyres unit :=
  match o with
  | DUsual o => run_py_op p o st
  | DWrite n source ssel dsel _ _ _ => py_write_direct p n source ssel dsel st
  end.
Fixpoint run_direct_ops (p : py_dataset) (ops : list direct_op) (st : store) : store * pyres unit :=
  match ops with
  | [] => (st, PyOk tt)
  | o :: r =>
      match run_direct_op p o st with
      | (st', PyOk _) => run_direct_ops p r st'
      | (st', e) => (st', e)
      end
  end.
Definition direct_op_ok (d : dataset) (o : direct_op) : Prop :=
  match o with
  | DUsual o => py_op_ok d o
  | DWrite n source ssel dsel off' off cnt =>
      array_data d n source /\ prod cnt < W64 /\
      box_selection ssel n off' cnt /\ valid_region n off' cnt /\
      box_selection dsel (d_shape d) off cnt /\ region_ok d off cnt
  end.
Fixpoint direct_applies (d : dataset) (ops : list direct_op) (a : shape -> cell) : shape -> cell :=
  match ops with
  | [] => a
  | DUsual o :: r => direct_applies d r (py_apply d o a)
  | DWrite n source _ _ off' off cnt :: r =>
      direct_applies d r (np_assign off cnt (fun i => cell_at source (rowmajor n (vadd off' i))) a)
  end.

(** The shapes differ on an axis on which the value is not repeated. *)
Definition shapes_clash (cnt cnt' : shape) : Prop :=
  length cnt = length cnt' /\ exists k x y, nth_error cnt k = Some x /\ nth_error cnt' k = Some y /\ x <> y /\ x <> 1.
