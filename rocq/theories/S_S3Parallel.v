(** Specification vocabulary for arrays in an object store on several threads. *)
From Verif Require Import M_Base M_Text M_Key M_Blocking M_View M_Bytes M_Format
  M_Mode M_Shard M_Dataset M_Sharded M_Access M_Pool M_Parallel M_Lock M_Clients M_S3Clients M_S3Parallel
  S_Array S_Grid S_Bytes S_Dataset S_Access S_Sharded S_Lock S_Clients S_Readers S_S3Clients.

(** One operation on a plain or a sharded dataset; sub-array writes run on [threads]
    threads, the other operations on one.  Objects and result afterwards. *)
Definition s3_par_op (d : dataset) (threads : N) (estimate : Z) (o : array_op) (st st1 : store) (r : outcome unit) : Prop :=
  match o with
  | AWrite off n src => s3_write_run d threads estimate src off n st st1 r
  | _ => exists x r', run (cb_code (s3_body d (KOp o))) (st, fun _ => []) = ((st1, x), r') /\ r = ended r'
  end.
Definition s3_sh_par_op (sd : sharded) (threads : N) (estimate : Z) (o : array_op) (st st1 : store) (r : outcome unit) : Prop :=
  match o with
  | AWrite off n src => s3_sh_write_run sd threads estimate src off n st st1 r
  | _ => exists x r', run (cb_code (s3_sharded_body sd (KOp o))) (st, fun _ => []) = ((st1, x), r') /\ r = ended r'
  end.

(** The array [new] where [done] says so, and [old] elsewhere. *)
Definition partly (done : shape -> bool) (new old : shape -> cell) : shape -> cell :=
  fun x => if done x then new x else old x.

(** The output array [o'] has the elements of the region at [off] of the array [a], and
    is the array [o] elsewhere. *)
Definition reads_as (d : dataset) (a : shape -> cell) (ov : view) (off : shape) (o o' : N -> cell) : Prop :=
  (forall i, in_shape (v_shape ov) i ->
     same_value d (o' (v_off ov + lin (v_strides ov) i)) (a (vadd off i)) /\
     (t_float (d_type d) = false -> o' (v_off ov + lin (v_strides ov) i) = a (vadd off i))) /\
  (forall a', (forall i, in_shape (v_shape ov) i -> a' <> v_off ov + lin (v_strides ov) i) -> o' a' = o a').
