(** Specification of regular chunk grids, independent of the model. *)
From Verif Require Import M_Base S_Array.

(** Pointwise predicates over vectors of equal length. *)
Fixpoint all2 (P : N -> N -> Prop) (a b : list N) : Prop :=
  match a, b with
  | [], [] => True
  | x :: a', y :: b' => P x y /\ all2 P a' b'
  | _, _ => False
  end.
Fixpoint all3 (P : N -> N -> N -> Prop) (a b c : list N) : Prop :=
  match a, b, c with
  | [], [], [] => True
  | x :: a', y :: b', z :: c' => P x y z /\ all3 P a' b' c'
  | _, _, _ => False
  end.
Fixpoint all4 (P : N -> N -> N -> N -> Prop) (a b c d : list N) : Prop :=
  match a, b, c, d with
  | [], [], [], [] => True
  | x :: a', y :: b', z :: c', w :: d' => P x y z w /\ all4 P a' b' c' d'
  | _, _, _, _ => False
  end.

(** Array shape [s] with chunk shape [b]: at least one axis, positive chunk
    extents, and no axis so close to 2^64 that the end of the last chunk is not
    a size_t any more. *)
Definition dims_ok (s b : list N) : Prop :=
  s <> [] /\ all2 (fun s b => 0 < b /\ s + b <= W64) s b.

(** Chunk [k] belongs to the grid iff it begins inside the array. *)
Definition valid_chunk (s b k : list N) : Prop := all3 (fun s b k => k * b < s) s b k.

(** Element [x] of the array belongs to chunk [k]. *)
Definition in_chunk (s b k x : list N) : Prop :=
  all4 (fun s b k x => k * b <= x /\ x < (k + 1) * b /\ x < s) s b k x.

(** [off, off+n) is a non-empty region inside an array of shape [s]. *)
Definition valid_region (s off n : list N) : Prop :=
  all3 (fun s off n => 0 < n /\ off + n <= s) s off n.

(** Number of chunks along each axis (rounded up). *)
Definition chunk_counts (s b : list N) : list N := map2 (fun s b => (s + b - 1) / b) s b.

(** Clipped extent of chunk [k] along each axis. *)
Fixpoint chunk_extent (s b k : list N) : list N :=
  match s, b, k with
  | s0 :: sr, b0 :: br, k0 :: kr => (N.min ((k0 + 1) * b0) s0 - k0 * b0) :: chunk_extent sr br kr
  | _, _, _ => []
  end.

(** First element of chunk [k]. *)
Definition chunk_origin (b k : list N) : list N := map2 N.mul k b.

(** Chunk [k] shares an element with the region [off, off+n). *)
Definition overlaps (s b off n k : list N) : Prop :=
  exists x, in_box off n x /\ in_chunk s b k x.

(** Request and chunk extents for which 32 bit differences are exact. *)
Definition small_request (b n : list N) : Prop := all2 (fun b n => b <= 2 ^ 31 /\ n <= 2 ^ 31) b n.

(** What the geometry (offset in request, shape, offset in chunk, complete flag)
    of the intersection of chunk [k] with the region must satisfy. *)
Record roi_exact (s b k off n : list N) (oreq sh ochk : list N) (complete : bool) : Prop := {
  (* the request-relative box is exactly the set of common elements *)
  re_isect : forall x, in_box (vadd off oreq) sh x <-> in_box off n x /\ in_chunk s b k x;
  (* seen from the chunk it is the same box *)
  re_same : vadd (chunk_origin b k) ochk = vadd off oreq;
  (* it is not empty, and inside of request and (clipped) chunk *)
  re_nonempty : Forall (fun e => 0 < e) sh;
  re_in_req : all3 (fun o e n => o + e <= n) oreq sh n;
  re_in_chunk : all3 (fun o e n => o + e <= n) ochk sh (chunk_extent s b k);
  (* complete iff the region contains the chunk; then the box is the chunk *)
  re_complete : complete = true <-> (forall x, in_chunk s b k x -> in_box off n x);
  re_complete_box : complete = true -> sh = chunk_extent s b k /\ ochk = map (fun _ => 0) s
}.

(** Sub-box [o, o+n) inside shape [s]. *)
Definition sub_of (s o n : list N) : Prop := all3 (fun o n s => o + n <= s) o n s.
