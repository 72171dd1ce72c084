(** Property C62: sub-array writes of sharded datasets that fail. *)
From Verif Require Import M_Base M_Text M_Key M_Blocking M_View M_Bytes M_N5Header M_Format
  M_Mode M_Shard M_Dataset M_Sharded M_Access M_Pool M_Parallel
  S_Array S_Grid S_Bytes S_Text S_Format S_Shard S_Dataset S_Sharded S_Access S_File S_Pool S_Parallel S_Fail
  P_Base P_Blocking P_Roi P_View P_Bytes P_Key P_Format P_Shard P_Dataset P_Access P_Read P_Sharded P_File P_Pool
  P_Foreach P_Parallel P_ParWrite P_ParSharded P_ParFail P_ShardFail Properties_Sharded Properties_Parallel.
Import List ListNotations.
Local Open Scope list_scope.
Local Open Scope N_scope.

(** C62: if the shard of a covered inner chunk has a damaged index, or the chunk has to be
    merged with stored bytes that the codec rejects, the write fails and that shard is
    kept, with the other inner chunks that are in it. *)
Theorem C62_shard_kept sd : sharded_ok sd -> forall threads est src off n st st1 r,
  region_ok (sd_base sd) off n -> source_ok (t_width (d_type (sd_base sd))) n src ->
  (forall c, overlaps (d_shape (sd_base sd)) (d_chunks (sd_base sd)) off n c -> complete_slot sd st c) ->
  sh_write_run sd threads est src off n st st1 r ->
  forall c, overlaps (d_shape (sd_base sd)) (d_chunks (sd_base sd)) off n c ->
  corrupt sd st c \/
  (must_merge (sd_base sd) off n c /\
   exists x, sh_read_raw_chunk sd st c = Ok x /\ x <> [] /\ file_cells (sd_base sd) c x = None) ->
  (exists e, r = Throw e) /\ st1 (shard_key sd c) = st (shard_key sd c).
Proof. intros H threads est src off n st st1 r. exact (@shard_unreadable_kept sd H threads est src off n st st1 r). Qed.
Print Assumptions C62_shard_kept.

(** C62: whatever happens, every covered shard is untouched or has the file that the write
    makes of it (stated with a directory in which no other shard can make the write
    fail): no shard has some of its inner chunks replaced and others not. *)
Theorem C62_shard_atomic sd : sharded_ok sd -> forall threads est src off n st st1 r,
  region_ok (sd_base sd) off n -> source_ok (t_width (d_type (sd_base sd))) n src ->
  (forall c, overlaps (d_shape (sd_base sd)) (d_chunks (sd_base sd)) off n c -> complete_slot sd st c) ->
  sh_write_run sd threads est src off n st st1 r ->
  forall c, overlaps (d_shape (sd_base sd)) (d_chunks (sd_base sd)) off n c ->
  st1 (shard_key sd c) = st (shard_key sd c) \/
  exists st', sh_write_request sd src off n (only_shard sd c st) = (st', Ok tt) /\
    st1 (shard_key sd c) = st' (shard_key sd c).
Proof. intros H threads est src off n st st1 r. exact (@shard_atomic sd H threads est src off n st st1 r). Qed.
Print Assumptions C62_shard_atomic.

(** A write to rows 3 and 4 of the dataset of C32_case, with three threads: the stored
    bytes of inner chunk (1, 0) are too long; its shard also holds chunk (0, 0). *)
Definition ex_long : store := fun k =>
  if String.eqb k (shard_key ex_sharded [1; 0])
  then Some (build_shard [[1; 0; 2; 0; 3; 0; 4; 0]; [1; 1; 1; 1; 1; 1; 1; 1; 1; 1]]) else None.
Example C62_shard_case : sharded_ok ex_sharded /\ region_ok (sd_base ex_sharded) [3; 0] [2; 2] /\
  overlaps [5; 3] [2; 2] [3; 0] [2; 2] [1; 0] /\ overlaps [5; 3] [2; 2] [3; 0] [2; 2] [2; 0] /\
  shard_key ex_sharded [1; 0] <> shard_key ex_sharded [2; 0] /\
  must_merge (sd_base ex_sharded) [3; 0] [2; 2] [1; 0] /\
  (forall c, overlaps [5; 3] [2; 2] [3; 0] [2; 2] c -> complete_slot ex_sharded ex_long c) /\
  (exists x, sh_read_raw_chunk ex_sharded ex_long [1; 0] = Ok x /\ x <> [] /\ file_cells (sd_base ex_sharded) [1; 0] x = None) /\
  exists st1 e, sh_write_run ex_sharded 3 1 (FromScalar [9; 9]) [3; 0] [2; 2] ex_long st1 (Throw e) /\
    st1 (shard_key ex_sharded [1; 0]) = ex_long (shard_key ex_sharded [1; 0]).
Proof.
  assert (Hr : region_ok (sd_base ex_sharded) [3; 0] [2; 2]) by (split; cbn; lia).
  assert (Hs : source_ok (t_width (d_type (sd_base ex_sharded))) [2; 2] (FromScalar [9; 9])) by (split; [reflexivity|repeat constructor]).
  assert (HO : overlaps [5; 3] [2; 2] [3; 0] [2; 2] [1; 0]) by (exists [3; 0]; split; [repeat constructor; lia|unfold in_chunk; cbn; lia]).
  assert (HO2 : overlaps [5; 3] [2; 2] [3; 0] [2; 2] [2; 0]) by (exists [4; 0]; split; [repeat constructor; lia|unfold in_chunk; cbn; lia]).
  assert (HM : must_merge (sd_base ex_sharded) [3; 0] [2; 2] [1; 0]) by (left; exists [2; 0]; split; [unfold in_chunk; cbn; lia|intros Hx; inversion Hx; lia]).
  assert (HC : forall c, overlaps [5; 3] [2; 2] [3; 0] [2; 2] c -> complete_slot ex_sharded ex_long c).
  { intros c (x & Hb & Hc). destruct c as [|k [|k1 [|k2 c]]], x as [|x [|x1 [|x2 xs]]]; cbn in Hc; try tauto.
    inversion Hb as [|? ? ? ? ? ? B1 B2 B3]; subst. inversion B3; subst.
    assert (K : (k = 1 \/ k = 2) /\ k1 = 0) by lia. destruct K as [[-> | ->] ->]; intros y Ey NE sz payload HP.
    - vm_compute in Ey. injection Ey as <-. vm_compute in HP. injection HP as <- <-. split; [left; reflexivity|]. split; [|discriminate].
      intros _. split; [repeat constructor|]. vm_compute. discriminate.
    - vm_compute in Ey. injection Ey as <-. congruence. }
  assert (HX : exists x, sh_read_raw_chunk ex_sharded ex_long [1; 0] = Ok x /\ x <> [] /\ file_cells (sd_base ex_sharded) [1; 0] x = None).
  { eexists. split; [vm_compute; reflexivity|]. split; [discriminate|vm_compute; reflexivity]. }
  split; [exact ex_sharded_ok|]. split; [exact Hr|]. split; [exact HO|]. split; [exact HO2|]. split; [vm_compute; discriminate|].
  split; [exact HM|]. split; [exact HC|]. split; [exact HX|].
  destruct (@sh_write_exists ex_sharded ex_sharded_ok 3 1%Z (FromScalar [9; 9]) [3; 0] [2; 2] ex_long Hr Hs HC) as (st1 & r & R).
  destruct (C62_shard_kept ex_sharded_ok Hr Hs HC R HO (or_intror (conj HM HX))) as [(e & ->) K]. eauto.
Qed.
