(** Property C41: crashes during a sub-array write. *)
From Verif Require Import M_Base M_Text M_Key M_Blocking M_View M_Bytes M_N5Header M_Format
  M_Mode M_Shard M_Dataset M_Sharded M_Access M_Pool M_Parallel M_Crash
  S_Array S_Grid S_Bytes S_Text S_Format S_Shard S_Dataset S_Access S_Sharded S_File S_Pool S_Parallel S_Crash
  P_Base P_Blocking P_Roi P_View P_Bytes P_Key P_Format P_Dataset P_Access P_Shard P_Sharded P_Pool P_Foreach P_Parallel P_ParWrite P_ParSharded
  P_Crash Properties_Dataset Properties_Access Properties_Sharded.
From Coq Require Import Sorted.
Import List ListNotations.
Local Open Scope list_scope.
Local Open Scope N_scope.

(** C41: a write to a plain dataset that dies.  The chunks of the region are processed
    in row-major order; up to some chunk the files are those of the complete write,
    from there on they are the old ones, and the chunk in between may be cut.  All
    other files are untouched.  Whatever the files contain. *)
Theorem C41_files d src off n st st' : dataset_ok d -> region_ok d off n -> write_crash d src off n st st' ->
  exists cs, StronglySorted lex_lt cs /\
    (forall c, In c cs <-> overlaps (d_shape d) (d_chunks d) off n c) /\
    interrupted (map (chunk_key (d_key d)) cs) st (fst (write_request d src off n st)) st'.
Proof. intros H. exact (@crash_files d H src off n st st'). Qed.
Print Assumptions C41_files.

(** C41: what readers see after the crash.  After any history and an interrupted
    write, every region that does not meet one certain chunk of the write can be read,
    and each of its chunks is entirely as before or entirely as after the write. *)
Theorem C41_array d ops src off n st st1 st2 : dataset_ok d -> can_write (d_mode d) = true ->
  Forall (array_op_ok d) ops -> array_op_ok d (AWrite off n src) ->
  (forall c, valid_chunk (d_shape d) (d_chunks d) c -> st (chunk_key (d_key d) c) = None) ->
  run_array_ops d ops st = (st1, Ok tt) -> write_crash d src off n st1 st2 ->
  exists (fresh : shape -> bool) (cut : option shape),
    (forall c, cut = Some c -> overlaps (d_shape d) (d_chunks d) off n c) /\
    (forall c, fresh c = true -> overlaps (d_shape d) (d_chunks d) off n c) /\
    forall ov off' out, region_ok d off' (v_shape ov) -> out_view_ok ov (lenN out) ->
      (forall c, cut = Some c -> ~ overlaps (d_shape d) (d_chunks d) off' (v_shape ov) c) ->
      exists out', read_subarray d st2 ov off' out = Ok out' /\ lenN out' = lenN out /\
        forall i, in_shape (v_shape ov) i -> exists v,
          let expected := apply_ops d (ops ++ if fresh (chunk_of (d_chunks d) (vadd off' i)) then [AWrite off n src] else [])
                            (fun _ => d_fill d) (vadd off' i) in
          getN out' (v_off ov + lin (v_strides ov) i) = Ok v /\ same_value d v expected /\
          (t_float (d_type d) = false -> v = expected).
Proof. intros H. exact (@crash_array d H ops src off n st st1 st2). Qed.
Print Assumptions C41_array.

(** The same for the shard files of a sharded dataset. *)
Theorem C41_shard_files sd src off n st st' : sharded_ok sd -> region_ok (sd_base sd) off n ->
  sh_write_crash sd src off n st st' ->
  exists ks, NoDup ks /\
    (forall k, In k ks <-> exists c, overlaps (d_shape (sd_base sd)) (d_chunks (sd_base sd)) off n c /\ shard_of (sd_cps sd) c = k) /\
    interrupted (map (chunk_key (d_key (sd_base sd))) ks) st (fst (sh_write_request sd src off n st)) st'.
Proof. intros H. exact (@crash_shards sd H src off n st st'). Qed.
Print Assumptions C41_shard_files.

(** C41 for sharded datasets: what readers see after the crash.  Every region that does
    not meet one certain shard of the write can be read, and each of its shards is
    entirely as before or entirely as after the write. *)
Theorem C41_shard_array sd ops src off n st st1 st2 : sharded_ok sd -> can_write (d_mode (sd_base sd)) = true ->
  Forall (array_op_ok (sd_base sd)) ops -> array_op_ok (sd_base sd) (AWrite off n src) ->
  (forall c, valid_chunk (d_shape (sd_base sd)) (d_chunks (sd_base sd)) c -> st (shard_key sd c) = None) ->
  run_sharded_ops sd ops st = (st1, Ok tt) -> sh_write_crash sd src off n st1 st2 ->
  exists (fresh : shape -> bool) (cut : option shape),
    (forall k, cut = Some k \/ fresh k = true -> exists c, overlaps (d_shape (sd_base sd)) (d_chunks (sd_base sd)) off n c /\ shard_of (sd_cps sd) c = k) /\
    forall ov off' out, region_ok (sd_base sd) off' (v_shape ov) -> out_view_ok ov (lenN out) ->
      (forall c, overlaps (d_shape (sd_base sd)) (d_chunks (sd_base sd)) off' (v_shape ov) c -> cut <> Some (shard_of (sd_cps sd) c)) ->
      exists out', sh_read_subarray sd st2 ov off' out = Ok out' /\ lenN out' = lenN out /\
        forall i, in_shape (v_shape ov) i -> exists v,
          let expected := apply_ops (sd_base sd)
                            (ops ++ if fresh (shard_of (sd_cps sd) (chunk_of (d_chunks (sd_base sd)) (vadd off' i))) then [AWrite off n src] else [])
                            (fun _ => d_fill (sd_base sd)) (vadd off' i) in
          getN out' (v_off ov + lin (v_strides ov) i) = Ok v /\ same_value (sd_base sd) v expected /\
          (t_float (d_type (sd_base sd)) = false -> v = expected).
Proof. intros H. exact (@crash_shard_array sd H ops src off n st st1 st2). Qed.
Print Assumptions C41_shard_array.

(** A write of two chunks that had the value 7; it dies after 3 bytes of the second. *)
Definition ex_crash_st : store := fst (run_array_ops ex_zarr [AWrite [0; 0] [2; 3] (FromScalar [1; 2])] (fun _ => None)).
Definition ex_crash_code : code := foreach_sequential (fun _ => write_unit_code ex_zarr (FromScalar [3; 4]) [0; 0] [2; 3]) [[0; 0]; [0; 1]]
  (repeat (d_fill ex_zarr) (N.to_nat (prodw (d_chunks ex_zarr)))).
Example C41_case : exists st',
  dataset_ok ex_zarr /\ region_ok ex_zarr [0; 0] [2; 3] /\
  write_crash ex_zarr (FromScalar [3; 4]) [0; 0] [2; 3] ex_crash_st st' /\
  ex_crash_st "0.1"%string = Some [1; 2; 7; 0; 1; 2; 7; 0] /\
  st' "0.0"%string = Some [3; 4; 3; 4; 3; 4; 3; 4] /\ st' "0.1"%string = Some [3; 4; 7].
Proof.
  destruct (cut_at 7 3 "0.1"%string ex_crash_code (ex_crash_st, fun _ => [])) as [m'|] eqn:E.
  2:{ exfalso. revert E. vm_compute. discriminate. }
  exists (fst m'). split; [exact ex_zarr_ok|]. split; [split; cbn; lia|]. split; [|split].
  - apply write_crash_reqs with (reqs := [[0; 0]; [0; 1]]); [vm_compute; reflexivity|]. exact (crash_cut E).
  - vm_compute. reflexivity.
  - assert (X : option_map (fun m => (fst m "0.0"%string, fst m "0.1"%string)) (Some m') =
      Some (Some [3; 4; 3; 4; 3; 4; 3; 4], Some [3; 4; 7])) by (rewrite <- E; vm_compute; reflexivity).
    cbn [option_map] in X. injection X as X1 X2. auto.
Qed.

(** A write of two shards that dies after 3 bytes of the second. *)
Notation ex_shard_crash := (cut_at 5 3 "c/0/1"%string (foreach_sequential (fun _ => shard_write_unit_code ex_sharded (FromScalar [3; 4]) [0; 0] [2; 3])
  [([0; 0], [[0; 0]]); ([0; 1], [[0; 1]])] (repeat (d_fill (sd_base ex_sharded)) (N.to_nat (prodw (d_chunks (sd_base ex_sharded)))))) (fun _ => None, fun _ => [])).
Example C41_shard_case : exists st',
  sharded_ok ex_sharded /\ can_write (d_mode (sd_base ex_sharded)) = true /\ region_ok (sd_base ex_sharded) [0; 0] [2; 3] /\
  sh_write_crash ex_sharded (FromScalar [3; 4]) [0; 0] [2; 3] (fun _ => None) st' /\
  (exists file, st' "c/0/0"%string = Some file /\ (3 < List.length file)%nat) /\ st' "c/0/1"%string = Some [3; 4; 7].
Proof.
  destruct ex_shard_crash as [m'|] eqn:E.
  2:{ exfalso. revert E. vm_compute. discriminate. }
  exists (fst m'). split; [exact ex_sharded_ok|]. split; [reflexivity|]. split; [split; cbn; lia|]. split; [|split].
  - eapply sh_write_crash_groups; [vm_compute; reflexivity|]. exact (crash_cut E).
  - assert (X : option_map (fun m => option_map (fun f => Nat.ltb 3 (List.length f)) (fst m "c/0/0"%string)) (Some m') = Some (Some true))
      by (rewrite <- E; vm_compute; reflexivity).
    cbn [option_map] in X. injection X as X. destruct (fst m' "c/0/0"%string) as [f|]; [|discriminate]. exists f. split; [reflexivity|].
    injection X as X. now apply Nat.ltb_lt.
  - assert (X : option_map (fun m => fst m "c/0/1"%string) (Some m') = Some (Some [3; 4; 7])) by (rewrite <- E; vm_compute; reflexivity).
    cbn [option_map] in X. now injection X.
Qed.

(** The write is not atomic for the chunk at the crash point: its old and its new
    contents are lost, and readChunk returns a mixture with the caller's buffer. *)
Theorem C41_atomic_refuted : exists d src off n st st' c, dataset_ok d /\ region_ok d off n /\
  write_crash d src off n st st' /\ overlaps (d_shape d) (d_chunks d) off n c /\
  st' (chunk_key (d_key d) c) <> st (chunk_key (d_key d) c) /\
  st' (chunk_key (d_key d) c) <> fst (write_request d src off n st) (chunk_key (d_key d) c) /\
  read_chunk d st c (repeat [5; 5] 4) = Ok (false, [[1; 2]; [7; 0]; [1; 2]; [7; 0]]) /\
  read_chunk d st' c (repeat [5; 5] 4) = Ok (false, [[3; 4]; [7; 5]; [5; 5]; [5; 5]]).
Proof.
  destruct C41_case as (st' & H1 & H2 & H3 & H4 & _ & H6).
  exists ex_zarr, (FromScalar [3; 4]), [0; 0], [2; 3], ex_crash_st, st', [0; 1].
  split; [exact H1|]. split; [exact H2|]. split; [exact H3|]. change (chunk_key (d_key ex_zarr) [0; 1]) with "0.1"%string.
  split; [exists [0; 2]; split; [repeat constructor; lia|repeat constructor; cbn; lia]|]. rewrite H4, H6.
  split; [discriminate|]. split; [vm_compute; discriminate|].
  assert (R : forall st, read_chunk ex_zarr st [0; 1] (repeat [5; 5] 4) =
    match st "0.1"%string with None => Throw ERuntime | Some b => buffer_to_data true (ElemType 2 false) raw_codec [2; 2] b (repeat [5; 5] 4) end)
    by reflexivity.
  rewrite !R, H4, H6. split; vm_compute; reflexivity.
Qed.
