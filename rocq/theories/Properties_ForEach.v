(** Property C59: iteration over chunks and blocks. *)
From Verif Require Import M_Base M_Blocking M_Pool M_ForEach S_Array S_Grid S_Pool S_ForEach P_Base P_Blocking P_Roi P_Foreach P_ForEach.
Import List ListNotations.
Local Open Scope N_scope.

(** C59: parallel_for_each_chunk calls the function for each chunk of the grid
    exactly once, whatever the number of threads and the schedule; with a function
    that throws, no chunk is visited twice and one of the exceptions arrives. *)
Theorem C59_chunks B s b threads est (junk : B -> Prop) b0 fail calls r :
  dims_ok s b -> prod (chunk_counts s b) < W64 ->
  for_each_chunk s b threads est junk b0 (fun _ => 0%nat) (counted shape_eqb fail) calls r ->
  visited fail (valid_chunk s b) calls r.
Proof. intros D P. exact (each_chunk_spec D P). Qed.
Print Assumptions C59_chunks.

(** C59: parallel_for_each_chunk_in_roi: the chunks that share an element with the
    (non-empty) region. *)
Theorem C59_chunks_in_region B s b threads est (junk : B -> Prop) b0 rb n fail calls r :
  dims_ok s b -> valid_region s rb n ->
  for_each_chunk_in_roi s b threads est junk b0 (fun _ => 0%nat) rb (map2 N.add rb n) (counted shape_eqb fail) calls r ->
  visited fail (overlaps s b rb n) calls r.
Proof. intros D V. apply (each_chunk_in_roi_spec D V). Qed.
Print Assumptions C59_chunks_in_region.

(** C59: parallel_for_each_block: the blocks, by first element and clipped extent. *)
Theorem C59_blocks B s b threads est (junk : B -> Prop) b0 fail calls r :
  dims_ok s b -> prod (chunk_counts s b) < W64 ->
  for_each_block s b threads est junk b0 (fun _ => 0%nat) (counted block_eqb fail) calls r ->
  visited fail (is_block (valid_chunk s b) s b) calls r.
Proof. intros D P. exact (each_block_spec D P). Qed.
Print Assumptions C59_blocks.

(** C59: hence each element of the array is in exactly one of the visited boxes,
    and these contain nothing else. *)
Theorem C59_blocks_tile B s b threads est (junk : B -> Prop) b0 calls r :
  dims_ok s b -> prod (chunk_counts s b) < W64 ->
  for_each_block s b threads est junk b0 (fun _ => 0%nat) (counted block_eqb (fun _ => None)) calls r ->
  r = Ok tt /\
  (forall x, in_shape s x -> exists a, calls a = 1%nat /\ in_box (fst a) (snd a) x /\
     forall a', calls a' <> 0%nat -> in_box (fst a') (snd a') x -> a' = a) /\
  (forall a x, calls a <> 0%nat -> in_box (fst a) (snd a) x -> in_shape s x).
Proof. exact (@each_block_tile B s b threads est junk b0 calls r). Qed.
Print Assumptions C59_blocks_tile.

(** C59: parallel_for_each_block_in_roi: the (whole) blocks that share an element
    with the region. *)
Theorem C59_blocks_in_region B s b threads est (junk : B -> Prop) b0 rb n fail calls r :
  dims_ok s b -> valid_region s rb n ->
  for_each_block_in_roi s b threads est junk b0 (fun _ => 0%nat) rb (map2 N.add rb n) (counted block_eqb fail) calls r ->
  visited fail (is_block (overlaps s b rb n) s b) calls r.
Proof. intros D V. apply (each_block_in_roi_spec D V). Qed.
Print Assumptions C59_blocks_in_region.

(** C59: all four return. *)
Theorem C59_runs_exist B s b threads est (junk : B -> Prop) b0 rb n fail fail' :
  dims_ok s b -> prod (chunk_counts s b) < W64 -> valid_region s rb n -> (exists x, junk x) ->
  (exists calls r, for_each_chunk s b threads est junk b0 (fun _ => 0%nat) (counted shape_eqb fail) calls r) /\
  (exists calls r, for_each_chunk_in_roi s b threads est junk b0 (fun _ => 0%nat) rb (map2 N.add rb n) (counted shape_eqb fail) calls r) /\
  (exists calls r, for_each_block s b threads est junk b0 (fun _ => 0%nat) (counted block_eqb fail') calls r) /\
  (exists calls r, for_each_block_in_roi s b threads est junk b0 (fun _ => 0%nat) rb (map2 N.add rb n) (counted block_eqb fail') calls r).
Proof.
  intros D P V J. split; [now apply each_chunk_exists|]. split; [now apply each_chunk_in_roi_exists|].
  split; [now apply each_block_exists|now apply each_block_in_roi_exists].
Qed.
Print Assumptions C59_runs_exist.

Example C59_case : dims_ok [10; 10] [3; 4] /\ prod (chunk_counts [10; 10] [3; 4]) < W64 /\
  valid_region [10; 10] [2; 4] [4; 4] /\ map2 N.add [2; 4] [4; 4] = [6; 8] /\
  overlaps [10; 10] [3; 4] [2; 4] [4; 4] [1; 1] /\ ~ overlaps [10; 10] [3; 4] [2; 4] [4; 4] [1; 2] /\
  is_block (valid_chunk [10; 10] [3; 4]) [10; 10] [3; 4] ([9; 8], [1; 2]).
Proof.
  split; [|split; [|split; [|split; [|split; [|split]]]]].
  - unfold dims_ok. cbn [all2]. split; [discriminate|]. repeat split; rewrite ?W64_val; lia.
  - rewrite W64_val. vm_compute. reflexivity.
  - unfold valid_region. cbn [all3]. repeat split; lia.
  - reflexivity.
  - exists [3; 4]. split; [repeat constructor; lia|]. unfold in_chunk. cbn. lia.
  - intros (x & H1 & H2). inversion H1; subst. unfold in_chunk in H2.
    repeat match goal with H : in_box _ _ _ |- _ => inversion H; clear H; subst end. cbn in H2. lia.
  - exists [3; 2]. split; [unfold valid_chunk; cbn [all3]; repeat split; lia|reflexivity].
Qed.

(** Refuted for empty regions: with roiBegin = roiEnd the function is still called,
    for the chunk that contains the position. *)
Theorem C59_empty_region_refuted :
  exists calls r,
    for_each_chunk_in_roi [10] [4] 1 0%Z (fun _ : unit => True) tt (fun _ => 0%nat) [5] [5]
      (counted shape_eqb (fun _ => None)) calls r /\
    r = Ok tt /\ calls [1] = 1%nat /\ forall k, ~ overlaps [10] [4] [5] [0] k.
Proof.
  eexists _, _. split; [|split; [|split]].
  - eapply (@each_chunk_in_roi _ _ _ _ _ _ _ _ _ _ _ _ _ _ _ _ 5%nat); [reflexivity|vm_compute; reflexivity|]. constructor; [lia|]. reflexivity.
  - reflexivity.
  - vm_compute. reflexivity.
  - intros k (x & H & _). inversion H; subst. lia.
Qed.
Print Assumptions C59_empty_region_refuted.
