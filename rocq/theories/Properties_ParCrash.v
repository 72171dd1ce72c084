(** Property C103: crashes during a sub-array write on several threads. *)
From Verif Require Import M_Base M_Text M_Key M_Blocking M_View M_Bytes M_N5Header M_Format
  M_Mode M_Shard M_Dataset M_Sharded M_Access M_Pool M_Parallel M_Crash M_ParCrash
  S_Array S_Grid S_Bytes S_Text S_Format S_Shard S_Dataset S_Access S_Sharded S_File S_Pool S_Parallel S_Crash
  P_Base P_Blocking P_Roi P_View P_Bytes P_Key P_Format P_Dataset P_Access P_Shard P_Sharded P_Pool P_Foreach P_Parallel P_ParWrite P_ParSharded
  P_Crash P_ParCrash Properties_Dataset Properties_Access Properties_Sharded Properties_Crash.
From Coq Require Import Sorted.
Import List ListNotations.
Local Open Scope list_scope.
Local Open Scope N_scope.

(** C103: a write to a plain dataset on any number of threads dies at any moment of any
    schedule; the write would have succeeded.  The files of all chunks of the region,
    except for at most one per thread, are the old ones or those of the complete
    write, the others may be cut; all other files are untouched. *)
Theorem C103_files d threads est src off n st st' : dataset_ok d -> region_ok d off n ->
  source_ok (t_width (d_type d)) n src ->
  (forall c file, overlaps (d_shape d) (d_chunks d) off n c -> st (chunk_key (d_key d) c) = Some file -> overwritable d c file) ->
  snd (write_request d src off n st) = Ok tt ->
  write_stopped d threads est src off n st st' ->
  exists cs, StronglySorted lex_lt cs /\
    (forall c, In c cs <-> overlaps (d_shape d) (d_chunks d) off n c) /\
    interrupted_on (N.to_nat (N.max 1 threads)) (map (chunk_key (d_key d)) cs) st (fst (write_request d src off n st)) st'.
Proof.
  intros H Hr Hs HF. apply (stopped_files H Hr Hs). intros c Hc. apply (existing_steady H); eauto using overlaps_valid.
Qed.
Print Assumptions C103_files.

(** C103: what readers see after the crash.  After any history and an interrupted
    write, every region that does not meet certain chunks of the write, at most one per
    thread, can be read, and each of its chunks is entirely as before or entirely as
    after the write. *)
Theorem C103_array d threads est ops src off n st st1 st2 : dataset_ok d -> can_write (d_mode d) = true ->
  Forall (array_op_ok d) ops -> array_op_ok d (AWrite off n src) ->
  (forall c, valid_chunk (d_shape d) (d_chunks d) c -> st (chunk_key (d_key d) c) = None) ->
  run_array_ops d ops st = (st1, Ok tt) -> write_stopped d threads est src off n st1 st2 ->
  exists (fresh : shape -> bool) (cut : list shape), (List.length cut <= N.to_nat (N.max 1 threads))%nat /\
    (forall c, In c cut -> overlaps (d_shape d) (d_chunks d) off n c) /\
    (forall c, fresh c = true -> overlaps (d_shape d) (d_chunks d) off n c) /\
    forall ov off' out, region_ok d off' (v_shape ov) -> out_view_ok ov (lenN out) ->
      (forall c, In c cut -> ~ overlaps (d_shape d) (d_chunks d) off' (v_shape ov) c) ->
      exists out', read_subarray d st2 ov off' out = Ok out' /\ lenN out' = lenN out /\
        forall i, in_shape (v_shape ov) i -> exists v,
          let expected := apply_ops d (ops ++ if fresh (chunk_of (d_chunks d) (vadd off' i)) then [AWrite off n src] else [])
                            (fun _ => d_fill d) (vadd off' i) in
          getN out' (v_off ov + lin (v_strides ov) i) = Ok v /\ same_value d v expected /\
          (t_float (d_type d) = false -> v = expected).
Proof. intros H. exact (@stopped_array d H threads est ops src off n st st1 st2). Qed.
Print Assumptions C103_array.

(** The same for sharded datasets: the shard files, and what readers see. *)
Theorem C103_shard_files sd threads est src off n st st' : sharded_ok sd -> region_ok (sd_base sd) off n ->
  source_ok (t_width (d_type (sd_base sd))) n src ->
  (forall c, overlaps (d_shape (sd_base sd)) (d_chunks (sd_base sd)) off n c -> complete_slot sd st c) ->
  snd (sh_write_request sd src off n st) = Ok tt ->
  sh_write_stopped sd threads est src off n st st' ->
  exists ks, NoDup ks /\
    (forall k, In k ks <-> exists c, overlaps (d_shape (sd_base sd)) (d_chunks (sd_base sd)) off n c /\ shard_of (sd_cps sd) c = k) /\
    interrupted_on (N.to_nat (N.max 1 threads)) (map (chunk_key (d_key (sd_base sd))) ks) st
      (fst (sh_write_request sd src off n st)) st'.
Proof.
  intros H Hr Hs HF. apply (stopped_shards H Hr Hs). intros c Hc. apply (complete_steady H); eauto using overlaps_valid.
Qed.
Print Assumptions C103_shard_files.
Theorem C103_shard_array sd threads est ops src off n st st1 st2 : sharded_ok sd -> can_write (d_mode (sd_base sd)) = true ->
  Forall (array_op_ok (sd_base sd)) ops -> array_op_ok (sd_base sd) (AWrite off n src) ->
  (forall c, valid_chunk (d_shape (sd_base sd)) (d_chunks (sd_base sd)) c -> st (shard_key sd c) = None) ->
  run_sharded_ops sd ops st = (st1, Ok tt) -> sh_write_stopped sd threads est src off n st1 st2 ->
  exists (fresh : shape -> bool) (cut : list shape), (List.length cut <= N.to_nat (N.max 1 threads))%nat /\
    (forall k, In k cut -> exists c, overlaps (d_shape (sd_base sd)) (d_chunks (sd_base sd)) off n c /\ shard_of (sd_cps sd) c = k) /\
    (forall k, fresh k = true -> exists c, overlaps (d_shape (sd_base sd)) (d_chunks (sd_base sd)) off n c /\ shard_of (sd_cps sd) c = k) /\
    forall ov off' out, region_ok (sd_base sd) off' (v_shape ov) -> out_view_ok ov (lenN out) ->
      (forall c, overlaps (d_shape (sd_base sd)) (d_chunks (sd_base sd)) off' (v_shape ov) c -> ~ In (shard_of (sd_cps sd) c) cut) ->
      exists out', sh_read_subarray sd st2 ov off' out = Ok out' /\ lenN out' = lenN out /\
        forall i, in_shape (v_shape ov) i -> exists v,
          let expected := apply_ops (sd_base sd)
            (ops ++ if fresh (shard_of (sd_cps sd) (chunk_of (d_chunks (sd_base sd)) (vadd off' i))) then [AWrite off n src] else [])
            (fun _ => d_fill (sd_base sd)) (vadd off' i) in
          getN out' (v_off ov + lin (v_strides ov) i) = Ok v /\ same_value (sd_base sd) v expected /\
          (t_float (d_type (sd_base sd)) = false -> v = expected).
Proof. intros H. exact (@stopped_sharded_array sd H threads est ops src off n st st1 st2). Qed.
Print Assumptions C103_shard_array.

(** The write of [C41_case] on two threads: both chunks are cut at the same time. *)
Definition ex_schedule : list (option nat) :=
  [None; None; None; None; Some 0; Some 1; Some 1; Some 0; Some 0; Some 1; Some 1; Some 0]%nat.
Notation ex_stopped :=
  (scheduled ex_zarr 2 0 (FromScalar [3; 4]) [0; 0] [2; 3] ex_crash_st [[0; 0]; [0; 1]] ex_schedule
    [Some ("0.0"%string, 3%nat); Some ("0.1"%string, 5%nat)]).
Example C103_case : exists st',
  dataset_ok ex_zarr /\ region_ok ex_zarr [0; 0] [2; 3] /\ source_ok (t_width (d_type ex_zarr)) [2; 3] (FromScalar [3; 4]) /\
  Forall (array_op_ok ex_zarr) [AWrite [0; 0] [2; 3] (FromScalar [1; 2])] /\
  run_array_ops ex_zarr [AWrite [0; 0] [2; 3] (FromScalar [1; 2])] (fun _ => None) = (ex_crash_st, Ok tt) /\
  snd (write_request ex_zarr (FromScalar [3; 4]) [0; 0] [2; 3] ex_crash_st) = Ok tt /\
  write_stopped ex_zarr 2 0 (FromScalar [3; 4]) [0; 0] [2; 3] ex_crash_st st' /\
  ex_crash_st "0.0"%string = Some [1; 2; 1; 2; 1; 2; 1; 2] /\
  ex_crash_st "0.1"%string = Some [1; 2; 7; 0; 1; 2; 7; 0] /\
  st' "0.0"%string = Some [3; 4; 3] /\ st' "0.1"%string = Some [3; 4; 7; 0; 3].
Proof.
  destruct ex_stopped as [m'|] eqn:E; [idtac|].
  2:{ exfalso. assert (X : match ex_stopped with Some _ => true | None => false end = true) by (vm_compute; reflexivity).
      rewrite E in X. discriminate. }
  assert (X : option_map (fun m => (fst m "0.0"%string, fst m "0.1"%string)) (Some m') =
      Some (Some [3; 4; 3], Some [3; 4; 7; 0; 3])) by (rewrite <- E; vm_compute; reflexivity).
  cbn [option_map] in X. injection X as X1 X2.
  exists (fst m'). split; [exact ex_zarr_ok|]. split; [split; cbn; lia|].
  split; [cbn; split; [reflexivity|repeat constructor]|].
  split; [constructor; [cbn; split; [split; cbn; lia|split; [reflexivity|repeat constructor]]|constructor]|].
  split; [unfold ex_crash_st; destruct (run_array_ops ex_zarr [AWrite [0; 0] [2; 3] (FromScalar [1; 2])] (fun _ => None)) as [st0 o] eqn:R; cbn [fst]; f_equal;
          change o with (snd (st0, o)); rewrite <- R; vm_compute; reflexivity|].
  split; [vm_compute; reflexivity|].
  split; [|split; [vm_compute; reflexivity|split; [vm_compute; reflexivity|auto]]].
  assert (X : begin_request ex_zarr [0; 0] [2; 3] = Ok [[0; 0]; [0; 1]]) by (vm_compute; reflexivity).
  apply scheduled_stopped with (2 := X) (3 := E). reflexivity.
Qed.

(** On several threads more than one chunk can lose both its old and its new contents. *)
Theorem C103_one_cut_refuted : exists d src off n st st', dataset_ok d /\ region_ok d off n /\
  source_ok (t_width (d_type d)) n src /\ snd (write_request d src off n st) = Ok tt /\
  write_stopped d 2 0 src off n st st' /\
  exists c c', c <> c' /\ forall x, x = c \/ x = c' -> overlaps (d_shape d) (d_chunks d) off n x /\
    st' (chunk_key (d_key d) x) <> st (chunk_key (d_key d) x) /\
    st' (chunk_key (d_key d) x) <> fst (write_request d src off n st) (chunk_key (d_key d) x).
Proof.
  destruct C103_case as (st' & H1 & H2 & H3 & _ & _ & H4 & H5 & H6 & H7 & H8 & H9).
  exists ex_zarr, (FromScalar [3; 4]), [0; 0], [2; 3], ex_crash_st, st'.
  split; [exact H1|]. split; [exact H2|]. split; [exact H3|]. split; [exact H4|]. split; [exact H5|].
  exists [0; 0], [0; 1]. split; [discriminate|]. intros x [->| ->].
  - split; [exists [0; 0]; split; [repeat constructor; lia|repeat constructor; cbn; lia]|].
    change (chunk_key (d_key ex_zarr) [0; 0]) with "0.0"%string. rewrite H6, H8. split; [discriminate|vm_compute; discriminate].
  - split; [exists [0; 2]; split; [repeat constructor; lia|repeat constructor; cbn; lia]|].
    change (chunk_key (d_key ex_zarr) [0; 1]) with "0.1"%string. rewrite H7, H9. split; [discriminate|vm_compute; discriminate].
Qed.
Print Assumptions C103_one_cut_refuted.

(** Two of four shards are cut at the same time. *)
Notation ex_sh_stopped :=
  (sh_scheduled ex_sharded 2 0 (FromScalar [3; 4]) [0; 0] [5; 3] (fun _ => None)
    [([0; 0], [[0; 0]; [1; 0]]); ([0; 1], [[0; 1]; [1; 1]]); ([1; 0], [[2; 0]]); ([1; 1], [[2; 1]])]
    [None; None; None; None; Some 0; Some 1; Some 1; Some 0; Some 0; Some 1]%nat
    [Some ("c/0/0"%string, 3%nat); Some ("c/0/1"%string, 5%nat)]).
Example C103_shard_case : exists st',
  sharded_ok ex_sharded /\ region_ok (sd_base ex_sharded) [0; 0] [5; 3] /\
  source_ok (t_width (d_type (sd_base ex_sharded))) [5; 3] (FromScalar [3; 4]) /\
  (forall c, overlaps (d_shape (sd_base ex_sharded)) (d_chunks (sd_base ex_sharded)) [0; 0] [5; 3] c -> complete_slot ex_sharded (fun _ => None) c) /\
  snd (sh_write_request ex_sharded (FromScalar [3; 4]) [0; 0] [5; 3] (fun _ => None)) = Ok tt /\
  sh_write_stopped ex_sharded 2 0 (FromScalar [3; 4]) [0; 0] [5; 3] (fun _ => None) st' /\
  st' "c/0/0"%string = Some [3; 4; 3] /\ st' "c/0/1"%string = Some [3; 4; 7; 0; 3].
Proof.
  destruct ex_sh_stopped as [m'|] eqn:E; [idtac|].
  2:{ exfalso. assert (X : match ex_sh_stopped with Some _ => true | None => false end = true) by (vm_compute; reflexivity).
      rewrite E in X. discriminate. }
  assert (X : option_map (fun m => (fst m "c/0/0"%string, fst m "c/0/1"%string)) (Some m') =
      Some (Some [3; 4; 3], Some [3; 4; 7; 0; 3])) by (rewrite <- E; vm_compute; reflexivity).
  cbn [option_map] in X. injection X as X1 X2.
  exists (fst m'). split; [exact ex_sharded_ok|]. split; [split; cbn; lia|].
  split; [cbn; split; [reflexivity|repeat constructor]|].
  split; [intros c Hc x; unfold sh_read_raw_chunk, read_shard; destruct (shard_id c (sd_cps ex_sharded)) as [k|e|]; cbn [bind];
          [|discriminate|discriminate]; destruct (shard_handle ex_sharded k) as [h|e|]; cbn [bind store_read];
          [|discriminate|discriminate]; intros [= <-] Hx; contradiction|].
  split; [vm_compute; reflexivity|].
  split; [|auto].
  assert (X : (let! reqs := begin_request (sd_base ex_sharded) [0; 0] [5; 3] in
   if negb (can_write (d_mode (sd_base ex_sharded))) then Throw EInvalidArgument else
   let! cps := chunks_per_shard (sd_shard ex_sharded) (d_chunks (sd_base ex_sharded)) in
   group_chunks cps reqs) = Ok [([0; 0], [[0; 0]; [1; 0]]); ([0; 1], [[0; 1]; [1; 1]]); ([1; 0], [[2; 0]]); ([1; 1], [[2; 1]])]) by (vm_compute; reflexivity).
  apply sh_scheduled_stopped with (2 := X) (3 := E). reflexivity.
Qed.
