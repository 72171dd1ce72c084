(** Model of include/z5/multiarray/array_view.hxx and array_util.hxx: strided
    views, copyView and fillView. *)
From Verif Require Import M_Base M_Blocking.

Section Views.
Context {V : Type}.

(** ArrayView / ConstArrayView, include/z5/multiarray/array_view.hxx:23-58.  The
    data pointer is an offset [v_off] into a buffer that is passed separately. *)
Record view := View { v_off : N; v_shape : shape; v_strides : shape }.

(** makeView, include/z5/multiarray/array_view.hxx:72-81, with cOrderStrides
    (lines 62-69, [c_strides]). *)
Definition make_view (sh : shape) : view := View 0 sh (c_strides sh).

(** Sum over d < size of idx[d] * strides[d]: subview,
    include/z5/multiarray/array_view.hxx:90-93 and array_util.hxx:46-50.
    Simplified: no wrap; an offset inside a buffer is below 2^64, and the
    wrapped sum is congruent to this one. *)
Fixpoint flat_offset (idx strides : shape) : N :=
  match idx, strides with
  | i :: ir, s :: sr => i * s + flat_offset ir sr
  | _, _ => 0
  end.

(** subview, include/z5/multiarray/array_view.hxx:86-106. *)
Definition subview (v : view) (offset sh : shape) : view :=
  View (v_off v + flat_offset offset (v_strides v)) sh (v_strides v).

(** The odometer step of copyView / fillView,
    include/z5/multiarray/array_util.hxx:61-66,112-117; the boolean is the carry
    out of axis 0. *)
Fixpoint odo_inc (sh idx : shape) : shape * bool :=
  match sh, idx with
  | n :: sr, i :: ir =>
      let (ir', carry) := odo_inc sr ir in
      if carry then (if i + 1 <? n then (i + 1 :: ir', false) else (0 :: ir', true))
      else (i :: ir', false)
  | _, _ => ([], true)
  end.

(** One run of copyView, include/z5/multiarray/array_util.hxx:52-58: elements
    [k, k+cnt) of the innermost axis with the given strides. *)
Fixpoint copy_run (src : list V) (soff sstr doff dstr : N) (k : N) (cnt : nat)
    (dst : list V) : outcome (list V) :=
  match cnt with
  | O => Ok dst
  | S c =>
      let! v := getN src (soff + k * sstr) in
      let! dst' := setN dst (doff + k * dstr) v in
      copy_run src soff sstr doff dstr (k + 1) c dst'
  end.

(** The loop over runs of copyView, include/z5/multiarray/array_util.hxx:43-67. *)
Fixpoint copy_runs (src : list V) (soff : N) (sst : shape) (slast : N)
    (doff : N) (outer dst_st : shape) (dlast : N) (lastDim : N)
    (nRuns : nat) (idx : shape) (dst : list V) : outcome (list V) :=
  match nRuns with
  | O => Ok dst
  | S r =>
      let so := soff + flat_offset idx sst in
      let d_o := doff + flat_offset idx dst_st in
      let! dst' :=
        if (slast =? 1) && (dlast =? 1)
        then copy_run src so 1 d_o 1 0 (N.to_nat lastDim) dst           (* std::copy *)
        else copy_run src so slast d_o dlast 0 (N.to_nat lastDim) dst in
      copy_runs src soff sst slast doff outer dst_st dlast lastDim r
                (fst (odo_inc outer idx)) dst'
  end.

(** copyView, include/z5/multiarray/array_util.hxx:21-68.  Strides shorter than
    the shape would be read out of bounds. *)
Definition copy_view (src : list V) (sv : view) (dst : list V) (dv : view) : outcome (list V) :=
  match v_shape dv with
  | [] => let! v := getN src (v_off sv) in setN dst (v_off dv) v
  | sh =>
      if (lenN (v_strides sv) <? lenN sh) || (lenN (v_strides dv) <? lenN sh) then UB
      else
        let outer := removelast sh in
        let nd := length outer in
        copy_runs src (v_off sv) (firstn nd (v_strides sv)) (nth nd (v_strides sv) 0)
                  (v_off dv) outer (firstn nd (v_strides dv)) (nth nd (v_strides dv) 0)
                  (last sh 0) (N.to_nat (fold_left N.mul outer 1)) (map (fun _ => 0) outer) dst
  end.

(** One run of fillView, include/z5/multiarray/array_util.hxx:104-110. *)
Fixpoint fill_run (val : V) (doff dstr : N) (k : N) (cnt : nat) (dst : list V)
    : outcome (list V) :=
  match cnt with
  | O => Ok dst
  | S c =>
      let! dst' := setN dst (doff + k * dstr) val in
      fill_run val doff dstr (k + 1) c dst'
  end.

(** The loop over runs of fillView, include/z5/multiarray/array_util.hxx:98-118. *)
Fixpoint fill_runs (val : V) (doff : N) (outer dst_st : shape) (dlast lastDim : N)
    (nRuns : nat) (idx : shape) (dst : list V) : outcome (list V) :=
  match nRuns with
  | O => Ok dst
  | S r =>
      let d_o := doff + flat_offset idx dst_st in
      let! dst' := if dlast =? 1
                   then fill_run val d_o 1 0 (N.to_nat lastDim) dst     (* std::fill *)
                   else fill_run val d_o dlast 0 (N.to_nat lastDim) dst in
      fill_runs val doff outer dst_st dlast lastDim r (fst (odo_inc outer idx)) dst'
  end.

(** fillView, include/z5/multiarray/array_util.hxx:79-119. *)
Definition fill_view (dst : list V) (dv : view) (val : V) : outcome (list V) :=
  match v_shape dv with
  | [] => setN dst (v_off dv) val
  | sh =>
      if lenN (v_strides dv) <? lenN sh then UB
      else
        let outer := removelast sh in
        let nd := length outer in
        fill_runs val (v_off dv) outer (firstn nd (v_strides dv)) (nth nd (v_strides dv) 0)
                  (last sh 0) (N.to_nat (fold_left N.mul outer 1)) (map (fun _ => 0) outer) dst
  end.

End Views.
