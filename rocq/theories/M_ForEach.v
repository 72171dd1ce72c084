(** Model of include/z5/util/for_each.hxx. *)
From Verif Require Import M_Base M_Blocking M_Pool.

(** Computation in a task, before the callback is called. *)
Definition plift {M B A} (o : outcome A) (k : A -> prog M B) : prog M B :=
  match o with
  | Ok a => k a
  | Throw e => Ret (Throw e)
  | UB => Ret UB
  end.

(** roiShape, include/z5/util/for_each.hxx:29-32 and 69-72. *)
Definition roi_extent (b e : shape) : shape := map2 subw e b.

Section ForEach.
(** [M], [B]: memory shared by the callbacks and state of a thread; [s], [b]: shape
    and chunk shape of the dataset. *)
Context {M B : Type}.
Variables (s b : shape) (threads : N) (estimate : Z) (junk : B -> Prop) (b0 : B) (m0 : M).

(** parallel_for_each_chunk, include/z5/util/for_each.hxx:13-21; [visit tid chunk] is the
    callback.  Simplified: the number of chunks is below 2^63. *)
Inductive for_each_chunk (visit : nat -> shape -> B -> prog M B) (m1 : M) (r : outcome unit) : Prop :=
| each_chunk bl : mk_blocking s b = Ok bl ->
    foreach_run threads estimate (N.to_nat (b_number bl))
      (fun tid i st => plift (id_to_coord (b_strides bl) (N.of_nat i)) (fun c => visit tid c st))
      junk b0 m0 m1 r ->
    for_each_chunk visit m1 r.

(** parallel_for_each_chunk_in_roi, include/z5/util/for_each.hxx:24-45. *)
Inductive for_each_chunk_in_roi (rb re : shape) (visit : nat -> shape -> B -> prog M B) (m1 : M) (r : outcome unit) : Prop :=
| each_chunk_in_roi bl chunks fuel : mk_blocking s b = Ok bl ->
    blocks_overlapping fuel (b_block bl) rb (roi_extent rb re) = Some chunks ->
    foreach_run threads estimate (List.length chunks)
      (fun tid i st => visit tid (nth i chunks []) st) junk b0 m0 m1 r ->
    for_each_chunk_in_roi rb re visit m1 r.

(** parallel_for_each_block, include/z5/util/for_each.hxx:48-60, with block shape [b]. *)
Inductive for_each_block (visit : nat -> shape * shape -> B -> prog M B) (m1 : M) (r : outcome unit) : Prop :=
| each_block bl : mk_blocking s b = Ok bl ->
    foreach_run threads estimate (N.to_nat (b_number bl))
      (fun tid i st => plift (id_to_coord (b_strides bl) (N.of_nat i)) (fun c =>
         visit tid (block_begin (b_block bl) c, block_shape_of (b_shape bl) (b_block bl) c) st))
      junk b0 m0 m1 r ->
    for_each_block visit m1 r.

(** parallel_for_each_block_in_roi, include/z5/util/for_each.hxx:63-88; the callback
    gets the whole blocks, not their intersection with the region. *)
Inductive for_each_block_in_roi (rb re : shape) (visit : nat -> shape * shape -> B -> prog M B) (m1 : M) (r : outcome unit) : Prop :=
| each_block_in_roi bl blocks fuel : mk_blocking s b = Ok bl ->
    blocks_overlapping fuel (b_block bl) rb (roi_extent rb re) = Some blocks ->
    foreach_run threads estimate (List.length blocks)
      (fun tid i st =>
         visit tid (block_begin (b_block bl) (nth i blocks []), block_shape_of (b_shape bl) (b_block bl) (nth i blocks [])) st)
      junk b0 m0 m1 r ->
    for_each_block_in_roi rb re visit m1 r.
End ForEach.
