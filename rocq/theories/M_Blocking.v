(** Model of include/z5/util/blocking.hxx and makeRegularGrid
    (include/z5/util/util.hxx). *)
From Verif Require Import M_Base.

(** class Blocking, include/z5/util/blocking.hxx:244-248 (members). *)
Record blocking := Blocking {
  b_shape : shape;
  b_block : shape;
  b_per_dim : shape;    (* blocksPerDimension_ *)
  b_strides : shape;    (* blockStrides_ *)
  b_number : N          (* numberOfBlocks_ *)
}.

(** init(), include/z5/util/blocking.hxx:229-231: number of blocks along one axis. *)
Definition blocks_along (s b : N) : N := addw (s / b) (if s mod b =? 0 then 0 else 1).

(** init(), include/z5/util/blocking.hxx:236-241, and cOrderStrides,
    include/z5/multiarray/array_view.hxx:62-69: strides[ndim-1] = 1,
    strides[d] = strides[d+1] * extent[d+1] (mod 2^64). *)
Fixpoint c_strides (ext : shape) : shape :=
  match ext with
  | [] => []
  | [_] => [1]
  | _ :: ((e1 :: _) as r) =>
      match c_strides r with
      | s1 :: sr => mulw s1 e1 :: s1 :: sr
      | [] => []
      end
  end.

(** Blocking::Blocking + init(), include/z5/util/blocking.hxx:13-16,220-242.
    blockShape_[d] past the end and division by a zero block extent are UB. *)
Definition mk_blocking (s b : shape) : outcome blocking :=
  if lenN s =? 0 then Throw EInvalidArgument
  else if lenN b <? lenN s then UB
  else if existsb (fun x => x =? 0) (firstn (length s) b) then UB
  else
    let bpd := map2 blocks_along s b in
    Ok (Blocking s b bpd (c_strides bpd) (prodw bpd)).

(** blockIdToBlockCoordinate, include/z5/util/blocking.hxx:34-42; a zero stride
    (empty array) is a division by zero. *)
Fixpoint id_to_coord (strides : shape) (index : N) : outcome shape :=
  match strides with
  | [] => Ok []
  | st :: r =>
      if st =? 0 then UB
      else let c := index / st in
           let! cs := id_to_coord r (subw index (mulw c st)) in Ok (c :: cs)
  end.

(** blockCoordinatesToBlockId, include/z5/util/blocking.hxx:44-50. *)
Definition coord_to_id (strides c : shape) : N :=
  fold_left addw (map2 mulw strides c) 0.

(** coordinateToBlockCoordinate, include/z5/util/blocking.hxx:55-61. *)
Definition elem_to_block (blk c : shape) : shape := map2 N.div c blk.

(** getBlockBeginAndShape, include/z5/util/blocking.hxx:74-83: begin. *)
Definition block_begin (blk c : shape) : shape := map2 mulw c blk.

(** getBlockBeginAndEnd, include/z5/util/blocking.hxx:93-102: end along one axis. *)
Definition block_end1 (s b c : N) : N := N.min (mulw (addw c 1) b) s.

(** getBlockBeginAndEnd, include/z5/util/blocking.hxx:93-102: end. *)
Fixpoint block_end (s blk c : shape) : shape :=
  match s, blk, c with
  | s0 :: sr, b0 :: br, c0 :: cr => block_end1 s0 b0 c0 :: block_end sr br cr
  | _, _, _ => []
  end.

(** getBlockBeginAndShape, include/z5/util/blocking.hxx:74-83: shape. *)
Definition block_shape_of (s blk c : shape) : shape :=
  map2 subw (block_end s blk c) (block_begin blk c).

(** checkBlockCoordinate, include/z5/util/blocking.hxx:204-217. *)
Definition check_block (bl : blocking) (c : shape) : bool :=
  (lenN c =? lenN (b_shape bl)) &&
  forallb (fun p => fst p <? snd p) (combine c (b_per_dim bl)).

(** The innermost loop of makeRegularGrid, include/z5/util/util.hxx:49-60:
    increment the last axis, on overflow reset it and carry into the axis
    before; the boolean is true iff the loop ran below axis 0 (d < 0). *)
Fixpoint odo_next (lo hi pos : shape) : shape * bool :=
  match lo, hi, pos with
  | l :: ls, h :: hs, p :: ps =>
      let (ps', carry) := odo_next ls hs ps in
      if carry then
        let p' := addw p 1 in
        if p' <=? h then (p' :: ps', false) else (l :: ps', true)
      else (p :: ps', false)
  | _, _, _ => ([], true)
  end.

(** makeRegularGrid, include/z5/util/util.hxx:36-62.  The outer loop runs until
    the odometer overflows; [fuel] bounds the iterations and exhausting it is
    reported as [None] (the C++ loop would still be running). *)
Fixpoint grid_loop (fuel : nat) (lo hi pos : shape) : option (list shape) :=
  match fuel with
  | O => None
  | S f =>
      let (pos', stop) := odo_next lo hi pos in
      if stop then Some [pos]
      else match grid_loop f lo hi pos' with
           | Some r => Some (pos :: r)
           | None => None
           end
  end.

(** makeRegularGrid, include/z5/util/util.hxx:36-62 (for nDim = 0 the loop body
    is never entered). *)
Definition make_grid (fuel : nat) (lo hi : shape) : option (list shape) :=
  match lo with [] => Some [] | _ => grid_loop fuel lo hi lo end.

(** getBlocksOverlappingRoi, include/z5/util/blocking.hxx:118-125: last block id
    along one axis. *)
Definition max_block (b off n : N) : N :=
  let e := addw off n in
  if e mod b =? 0 then subw (e / b) 1 else e / b.

(** getBlocksOverlappingRoi, include/z5/util/blocking.hxx:118-125: last block ids. *)
Fixpoint max_blocks (blk off n : shape) : shape :=
  match blk, off, n with
  | b0 :: br, o0 :: or, n0 :: nr => max_block b0 o0 n0 :: max_blocks br or nr
  | _, _, _ => []
  end.

(** getBlocksOverlappingRoi, include/z5/util/blocking.hxx:109-128. *)
Definition blocks_overlapping (fuel : nat) (blk off n : shape) : option (list shape) :=
  make_grid fuel (elem_to_block blk off) (max_blocks blk off n).

(** Conversion of a size_t to int (two's complement, C++20), as in
    "int offDiff = blockBegin - roiBegin", include/z5/util/blocking.hxx:158,167-168. *)
Definition to_int32 (x : N) : Z :=
  let m := Z.of_N (x mod 2 ^ 32) in
  if (m <? 2 ^ 31)%Z then m else (m - 2 ^ 32)%Z.

(** Conversion of an int back to size_t (beginInBlock[d] = -offDiff,
    include/z5/util/blocking.hxx:175). *)
Definition of_int (z : Z) : N := Z.to_N (z mod 2 ^ 64)%Z.

(** -offDiff on a 32 bit int, include/z5/util/blocking.hxx:175; negating INT_MIN
    is a signed overflow. *)
Definition neg_int32 (z : Z) : outcome Z :=
  if (z =? - 2 ^ 31)%Z then UB else Ok (- z)%Z.

(** Result of getCoordinatesInRoi for one axis: beginInRoi[d], shapeInRoi[d],
    beginInBlock[d], and whether the axis keeps completeOvlp true. *)
Record axis_roi := AxisRoi {
  a_begin_in_roi : N; a_shape_in_roi : N; a_begin_in_block : N; a_complete : bool }.

(** getCoordinatesInRoi, include/z5/util/blocking.hxx:159-199: loop body for one
    axis with dataset extent [s], block extent [b], block id [c] and request
    [off, off + n). *)
Definition coords_in_roi1 (s b c off n : N) : outcome axis_roi :=
  let bbeg := mulw c b in
  let bsh := subw (block_end1 s b c) bbeg in
  let bend := addw bbeg bsh in
  let rend := addw off n in
  let offDiff := to_int32 (subw bbeg off) in
  let endDiff := to_int32 (subw rend bend) in
  if (offDiff <? 0)%Z then
    let! neg := neg_int32 offDiff in
    Ok (AxisRoi 0 (if bend <=? rend then subw bend off else subw rend off)
                (of_int neg) false)
  else if (endDiff <? 0)%Z then
    Ok (AxisRoi (subw bbeg off) (subw rend bbeg) 0 false)
  else
    Ok (AxisRoi (subw bbeg off) bsh 0 true).

(** getCoordinatesInRoi, include/z5/util/blocking.hxx:141-201: loop over the axes. *)
Fixpoint coords_in_roi_axes (s blk c off n : shape) : outcome (list axis_roi) :=
  match s, blk, c, off, n with
  | s0 :: sr, b0 :: br, c0 :: cr, o0 :: or, n0 :: nr =>
      let! a := coords_in_roi1 s0 b0 c0 o0 n0 in
      let! r := coords_in_roi_axes sr br cr or nr in Ok (a :: r)
  | _, _, _, _, _ => Ok []
  end.

(** The four results of getCoordinatesInRoi, include/z5/util/blocking.hxx:141-146. *)
Record roi_coords := RoiCoords {
  r_off_in_req : shape;   (* beginInRoi *)
  r_shape : shape;        (* shapeInRoi *)
  r_off_in_chunk : shape; (* beginInBlock *)
  r_complete : bool       (* return value *)
}.

(** getCoordinatesInRoi, include/z5/util/blocking.hxx:141-201. *)
Definition coords_in_roi (s blk c off n : shape) : outcome roi_coords :=
  let! ax := coords_in_roi_axes s blk c off n in
  Ok (RoiCoords (map a_begin_in_roi ax) (map a_shape_in_roi ax)
                (map a_begin_in_block ax) (forallb a_complete ax)).

(** checkRequestShape, include/z5/dataset.hxx:47-62: test of one axis (true = passes). *)
Definition check_axis (s off n : N) : bool :=
  negb (s <? addw off n) && negb (n =? 0).

(** checkRequestShape, include/z5/dataset.hxx:51-61: loop over the axes. *)
Fixpoint check_axes (s off n : shape) : bool :=
  match s, off, n with
  | s0 :: sr, o0 :: or, n0 :: nr => check_axis s0 o0 n0 && check_axes sr or nr
  | _, _, _ => true
  end.

(** checkRequestShape, include/z5/dataset.hxx:47-62. *)
Definition check_request (s off n : shape) : outcome unit :=
  if negb ((lenN off =? lenN s) && (lenN n =? lenN s)) then Throw ERuntime
  else if check_axes s off n then Ok tt else Throw ERuntime.

(** Chunk::computeBoundedShape along one axis, include/z5/handle.hxx:226-227. *)
Definition bounded1 (s b c : N) : N :=
  if mulw (addw c 1) b <=? s then b else subw s (mulw c b).

(** Chunk::computeBoundedShape, include/z5/handle.hxx:222-230. *)
Fixpoint bounded_shape (s blk c : shape) : shape :=
  match s, blk, c with
  | s0 :: sr, b0 :: br, c0 :: cr => bounded1 s0 b0 c0 :: bounded_shape sr br cr
  | _, _, _ => []
  end.
