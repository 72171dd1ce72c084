(** Property theorems C01 - C06: the chunk grid. *)
From Coq Require Import Sorted.
From Verif Require Import M_Base S_Array S_Grid M_Blocking P_Base P_Blocking P_Roi.

(** C01: chunk numbers and valid grid coordinates are in bijection; numbering is
    row-major; there are as many chunks as valid coordinates. *)
Theorem C01_chunk_numbering_bijection s b bl : dims_ok s b -> mk_blocking s b = Ok bl ->
  prod (chunk_counts s b) < W64 ->
  (forall i, i < b_number bl ->
     exists k, id_to_coord (b_strides bl) i = Ok k /\ valid_chunk s b k /\
               coord_to_id (b_strides bl) k = i) /\
  (forall k, valid_chunk s b k ->
     coord_to_id (b_strides bl) k < b_number bl /\
     id_to_coord (b_strides bl) (coord_to_id (b_strides bl) k) = Ok k) /\
  (forall k, valid_chunk s b k -> coord_to_id (b_strides bl) k = rowmajor (chunk_counts s b) k).
Proof. exact (@id_coord_bijection s b bl). Qed.
Print Assumptions C01_chunk_numbering_bijection.

Example C01_case : dims_ok [5; 7; 3] [2; 3; 3] /\
  (exists bl, mk_blocking [5; 7; 3] [2; 3; 3] = Ok bl /\ b_number bl = 9) /\
  prod (chunk_counts [5; 7; 3] [2; 3; 3]) < W64 /\ valid_chunk [5; 7; 3] [2; 3; 3] [2; 2; 0].
Proof.
  unfold dims_ok, valid_chunk. rewrite W64_val. cbn [all2 all3].
  split; [split; [discriminate|repeat split; rewrite ?W64_val; lia]|].
  split; [eexists; vm_compute; split; reflexivity|]. split; [vm_compute; reflexivity|]. repeat split; lia.
Qed.

(** C01, counting: the number of chunks is the number of valid coordinates. *)
Theorem C01_chunk_count s b bl : dims_ok s b -> mk_blocking s b = Ok bl ->
  prod (chunk_counts s b) < W64 ->
  exists l, NoDup l /\ (forall k, In k l <-> valid_chunk s b k) /\ lenN l = b_number bl.
Proof. exact (@chunk_count_exact s b bl). Qed.
Print Assumptions C01_chunk_count.

(** C02: each element of the array lies in exactly one chunk of the grid, and
    the begin / shape reported for a chunk describes exactly its elements. *)
Theorem C02_chunks_tile s b : dims_ok s b ->
  (forall x, in_shape s x ->
     valid_chunk s b (elem_to_block b x) /\
     in_box (block_begin b (elem_to_block b x)) (block_shape_of s b (elem_to_block b x)) x /\
     (forall k, valid_chunk s b k -> in_box (block_begin b k) (block_shape_of s b k) x ->
                k = elem_to_block b x)) /\
  (forall k, valid_chunk s b k ->
     all4 (fun s b k n => 0 < n /\ n <= b /\ k * b + n <= s) s b k (block_shape_of s b k) /\
     block_begin b k = map2 N.mul k b /\
     bounded_shape s b k = block_shape_of s b k /\
     vadd (block_begin b k) (block_shape_of s b k) = block_end s b k).
Proof. exact (@chunks_tile s b). Qed.
Print Assumptions C02_chunks_tile.

Example C02_case : dims_ok [5; 7] [2; 3] /\ in_shape [5; 7] [4; 6] /\
  elem_to_block [2; 3] [4; 6] = [2; 2] /\ block_shape_of [5; 7] [2; 3] [2; 2] = [1; 1].
Proof.
  unfold dims_ok, in_shape. cbn [all2].
  split; [split; [discriminate|repeat split; rewrite ?W64_val; lia]|].
  repeat split; try (repeat constructor; lia).
Qed.

(** C02, validity check: checkBlockCoordinate accepts exactly the grid. *)
Theorem C02_validity_check s b bl k : dims_ok s b -> mk_blocking s b = Ok bl ->
  check_block bl k = true <-> valid_chunk s b k.
Proof. exact (@check_block_spec s b k bl). Qed.
Print Assumptions C02_validity_check.

(** C03: the chunk list of a region request, for every iteration budget that
    lets the loop finish. *)
Theorem C03_chunks_of_region s b off n : dims_ok s b -> valid_region s off n ->
  exists l, (forall fuel, (length l <= fuel)%nat -> blocks_overlapping fuel b off n = Some l) /\
    l <> [] /\ StronglySorted lex_lt l /\ NoDup l /\
    (forall k, In k l <-> overlaps s b off n k) /\
    (forall k, In k l -> valid_chunk s b k).
Proof. exact (@chunks_of_region s b off n). Qed.
Print Assumptions C03_chunks_of_region.

Example C03_case : dims_ok [10; 10] [3; 4] /\ valid_region [10; 10] [2; 4] [4; 4] /\
  blocks_overlapping 100 [3; 4] [2; 4] [4; 4] = Some [[0; 1]; [1; 1]].
Proof.
  unfold dims_ok, valid_region. cbn [all2 all3].
  split; [split; [discriminate|repeat split; rewrite ?W64_val; lia]|]. split; [repeat split; lia|].
  vm_compute. reflexivity.
Qed.

(** C04: intersection geometry, request and chunk extents at most 2^31. *)
Theorem C04_intersection_geometry s b k off n : dims_ok s b -> valid_region s off n ->
  small_request b n -> overlaps s b off n k ->
  exists r, coords_in_roi s b k off n = Ok r /\
    roi_exact s b k off n (r_off_in_req r) (r_shape r) (r_off_in_chunk r) (r_complete r).
Proof. exact (@coords_in_roi_exact s b k off n). Qed.
Print Assumptions C04_intersection_geometry.

Example C04_case : dims_ok [10; 10] [3; 4] /\ valid_region [10; 10] [2; 4] [4; 6] /\
  small_request [3; 4] [4; 6] /\ overlaps [10; 10] [3; 4] [2; 4] [4; 6] [0; 2] /\
  coords_in_roi [10; 10] [3; 4] [0; 2] [2; 4] [4; 6] =
    Ok (RoiCoords [0; 4] [1; 2] [2; 0] false) /\
  coords_in_roi [10; 10] [3; 4] [1; 2] [2; 4] [4; 6] =
    Ok (RoiCoords [1; 4] [3; 2] [0; 0] true).
Proof.
  unfold dims_ok, valid_region, small_request, overlaps, in_chunk. cbn [all2 all3].
  split; [split; [discriminate|repeat split; rewrite ?W64_val; lia]|]. split; [repeat split; lia|].
  split; [vm_compute; repeat split; discriminate|].
  split; [exists [2; 8]; cbn [all4]; split; [repeat constructor; lia|repeat split; lia]|].
  split; vm_compute; reflexivity.
Qed.

(** C05 fails: along an axis of 2^32 elements a chunk in the second half of a
    complete read is given offset 0 in the request. *)
Theorem C05_large_extents_refuted :
  exists s b k off n, dims_ok s b /\ valid_region s off n /\ overlaps s b off n k /\
    prod s < W64 /\
    ~ (exists r, coords_in_roi s b k off n = Ok r /\
        roi_exact s b k off n (r_off_in_req r) (r_shape r) (r_off_in_chunk r) (r_complete r)).
Proof. exact coords_in_roi_large_refuted. Qed.
Print Assumptions C05_large_extents_refuted.

(** C05, what happens: the chunk at element 3*2^30 (which lies completely inside
    the request) is placed at request offset 0 with an offset of 2^30 in the
    chunk, i.e. elements are copied to the wrong place. *)
Theorem C05_wrong_placement :
  coords_in_roi [4294967296] [1073741824] [3] [0] [4294967296] =
    Ok (RoiCoords [0] [4294967296] [1073741824] false).
Proof. exact coords_in_roi_large_value. Qed.
Print Assumptions C05_wrong_placement.

(** C06: request validation, for requests whose end does not wrap. *)
Theorem C06_request_validation_partial s off n :
  (forall o e, In (o, e) (combine off n) -> o + e < W64) ->
  (check_request s off n = Ok tt <-> valid_region s off n) /\
  (check_request s off n = Throw ERuntime <-> ~ valid_region s off n).
Proof. exact (@check_request_exact s off n). Qed.
Print Assumptions C06_request_validation_partial.

(** C06, without the bound an invalid request is accepted only through a wrap. *)
Theorem C06_only_wrap_accepted s off n : Forall (fun x => x < W64) s ->
  check_request s off n = Ok tt ->
  valid_region s off n \/ exists o e, In (o, e) (combine off n) /\ W64 <= o + e.
Proof. exact (@check_request_wrap s off n). Qed.
Print Assumptions C06_only_wrap_accepted.

(** C06 fails in full: an offset just below 2^64 is accepted. *)
Theorem C06_request_validation_refuted :
  exists s off n, Forall (fun x => x < W64) (s ++ off ++ n) /\
    check_request s off n = Ok tt /\ ~ valid_region s off n.
Proof. exact check_request_wrap_refuted. Qed.
Print Assumptions C06_request_validation_refuted.

Example C06_case : (forall o e, In (o, e) (combine [3; 4] [2; 6]) -> o + e < W64) /\
  check_request [5; 10] [3; 4] [2; 6] = Ok tt /\
  check_request [5; 10] [3; 5] [2; 6] = Throw ERuntime /\
  check_request [5; 10] [3] [2] = Throw ERuntime /\
  check_request [5; 10] [3; 4] [2; 0] = Throw ERuntime.
Proof.
  split; [intros o e [[= <- <-]|[[= <- <-]|[]]]; rewrite W64_val; lia|].
  repeat split; vm_compute; reflexivity.
Qed.
