(** Property C105: writes to an object store that are cut off. *)
From Verif Require Import M_Base M_Text M_Key M_Blocking M_View M_Bytes M_N5Header M_Format
  M_Mode M_Shard M_Dataset M_Sharded M_Access M_Store M_S3
  S_Array S_Grid S_Text S_Shard S_Dataset S_Access S_Sharded S_File S_Crash S_S3 S_Tree
  P_Base P_Key P_S3Crash Properties_Dataset Properties_Access Properties_Sharded.
From Coq Require Import Sorted.
Import List ListNotations.
Local Open Scope list_scope.
Local Open Scope N_scope.

(** C105: the process dies during a write to a plain dataset in a bucket, or the service
    stops to answer for the rest of the call.  The chunks of the region are processed
    in row-major order; up to some chunk the objects are those of the complete write,
    from there on they are the old ones.  Everything else is unchanged, and a call that
    returns has written everything. *)
Theorem C105_objects name d src off n s s' r : dataset_ok d -> region_ok d off n -> cut_off s ->
  g_write_request (s3_policy name) d src off n s = (s', r) -> fates s' <> [] ->
  others_same name s s' /\ exists cs, StronglySorted lex_lt cs /\ (forall c, In c cs <-> overlaps (d_shape d) (d_chunks d) off n c) /\
    stopped (map (chunk_key (d_key d)) cs) (files name s) (files name (fst (g_write_request (s3_policy name) d src off n (quiet s)))) (files name s') /\
    (r = Ok tt -> objects s' = objects (fst (g_write_request (s3_policy name) d src off n (quiet s)))).
Proof. exact (@cut_write name d src off n s s' r). Qed.
Print Assumptions C105_objects.

(** The same for the shards of a sharded dataset. *)
Theorem C105_shards name sd src off n s s' r : sharded_ok sd -> region_ok (sd_base sd) off n -> cut_off s ->
  g_sh_write_request (s3_policy name) sd src off n s = (s', r) -> fates s' <> [] ->
  others_same name s s' /\ exists ks, NoDup ks /\
    (forall k, In k ks <-> exists c, overlaps (d_shape (sd_base sd)) (d_chunks (sd_base sd)) off n c /\ shard_of (sd_cps sd) c = k) /\
    stopped (map (chunk_key (d_key (sd_base sd))) ks) (files name s) (files name (fst (g_sh_write_request (s3_policy name) sd src off n (quiet s)))) (files name s') /\
    (r = Ok tt -> objects s' = objects (fst (g_sh_write_request (s3_policy name) sd src off n (quiet s)))).
Proof. exact (@cut_sharded_write name sd src off n s s' r). Qed.
Print Assumptions C105_shards.

(** What readers see afterwards: the call throws std::runtime_error or has returned, all
    regions can be read, and each chunk is entirely as before or entirely as after the
    write. *)
Theorem C105_array name d ops src off n s s1 l1 fs s2 r : dataset_ok d -> fs_separator (k_delim (d_key d)) ->
  can_write (d_mode d) = true -> Forall (array_op_ok d) ops ->
  array_op_ok d (S_Access.AWrite off n src) -> reliable s ->
  (forall c, valid_chunk (d_shape d) (d_chunks d) c -> files name s (chunk_key (d_key d) c) = None) ->
  history (call (s3_policy name) d) (map op_call ops) s = (s1, l1) ->
  cut_off (S3 (objects s1) fs) -> g_write_request (s3_policy name) d src off n (S3 (objects s1) fs) = (s2, r) -> fates s2 <> [] ->
  (r = Throw ERuntime \/ r = Ok tt) /\
  exists fresh : shape -> bool,
    (forall c, fresh c = true -> overlaps (d_shape d) (d_chunks d) off n c) /\
    (r = Ok tt -> forall c, overlaps (d_shape d) (d_chunks d) off n c -> fresh c = true) /\
    forall ov off' out, region_ok d off' (v_shape ov) -> out_view_ok ov (lenN out) ->
      exists out', snd (g_read_subarray (s3_policy name) d ov off' out (quiet s2)) = Ok out' /\ lenN out' = lenN out /\
        forall i, in_shape (v_shape ov) i -> exists v,
          let expected := apply_ops d (ops ++ if fresh (chunk_of (d_chunks d) (vadd off' i)) then [S_Access.AWrite off n src] else [])
                            (fun _ => d_fill d) (vadd off' i) in
          getN out' (v_off ov + lin (v_strides ov) i) = Ok v /\ same_value d v expected /\
          (t_float (d_type d) = false -> v = expected).
Proof. intros H1 H2. exact (@cut_array name d H1 H2 ops src off n s s1 l1 fs s2 r). Qed.
Print Assumptions C105_array.

Theorem C105_sharded_array name sd ops src off n s s1 l1 fs s2 r : sharded_ok sd -> fs_separator (k_delim (d_key (sd_base sd))) ->
  can_write (d_mode (sd_base sd)) = true -> Forall (array_op_ok (sd_base sd)) ops ->
  array_op_ok (sd_base sd) (S_Access.AWrite off n src) -> reliable s ->
  (forall c, valid_chunk (d_shape (sd_base sd)) (d_chunks (sd_base sd)) c -> files name s (shard_key sd c) = None) ->
  history (sh_call (s3_policy name) sd) (map op_call ops) s = (s1, l1) ->
  cut_off (S3 (objects s1) fs) -> g_sh_write_request (s3_policy name) sd src off n (S3 (objects s1) fs) = (s2, r) -> fates s2 <> [] ->
  (r = Throw ERuntime \/ r = Ok tt) /\
  exists fresh : shape -> bool,
    (forall k, fresh k = true -> exists c, overlaps (d_shape (sd_base sd)) (d_chunks (sd_base sd)) off n c /\ shard_of (sd_cps sd) c = k) /\
    (r = Ok tt -> forall c, overlaps (d_shape (sd_base sd)) (d_chunks (sd_base sd)) off n c -> fresh (shard_of (sd_cps sd) c) = true) /\
    forall ov off' out, region_ok (sd_base sd) off' (v_shape ov) -> out_view_ok ov (lenN out) ->
      exists out', snd (g_sh_read_subarray (s3_policy name) sd ov off' out (quiet s2)) = Ok out' /\ lenN out' = lenN out /\
        forall i, in_shape (v_shape ov) i -> exists v,
          let expected := apply_ops (sd_base sd)
                            (ops ++ if fresh (shard_of (sd_cps sd) (chunk_of (d_chunks (sd_base sd)) (vadd off' i))) then [S_Access.AWrite off n src] else [])
                            (fun _ => d_fill (sd_base sd)) (vadd off' i) in
          getN out' (v_off ov + lin (v_strides ov) i) = Ok v /\ same_value (sd_base sd) v expected /\
          (t_float (d_type (sd_base sd)) = false -> v = expected).
Proof. intros H1 H2. exact (@cut_sharded_array name sd H1 H2 ops src off n s s1 l1 fs s2 r). Qed.
Print Assumptions C105_sharded_array.

(** Two chunks; the second one is read and written again.  The service stops at the
    question for the second chunk, which is then taken for missing: the objects are the
    new one and the old one.  Or it stops after the last request, whose answer is lost:
    both are new, but the call throws. *)
Notation ex_before := (fst (history (call (s3_policy "ds") ex_zarr) (map op_call [S_Access.AWrite [0; 0] [2; 3] (FromScalar [1; 2])]) (S3 [] []))).
Notation ex_cut fs := (g_write_request (s3_policy "ds") ex_zarr (FromScalar [3; 4]) [0; 0] [2; 3] (S3 (objects ex_before) fs)).
Example C105_case :
  dataset_ok ex_zarr /\ fs_separator (k_delim (d_key ex_zarr)) /\ can_write (d_mode ex_zarr) = true /\
  array_op_ok ex_zarr (S_Access.AWrite [0; 0] [2; 3] (FromScalar [3; 4])) /\ reliable (S3 [] []) /\
  cut_off (S3 (objects ex_before) [Served; Refused; Refused; Refused]) /\
  (let '(s, r) := ex_cut [Served; Refused; Refused; Refused] in
   fates s = [Refused] /\ r = Throw ERuntime /\
   files "ds" s "0.0"%string = Some [3; 4; 3; 4; 3; 4; 3; 4] /\ files "ds" s "0.1"%string = Some [1; 2; 7; 0; 1; 2; 7; 0]) /\
  cut_off (S3 (objects ex_before) [Served; Served; Served; Lost; Refused]) /\
  (let '(s, r) := ex_cut [Served; Served; Served; Lost; Refused] in
   fates s = [Refused] /\ r = Throw ERuntime /\
   files "ds" s "0.0"%string = Some [3; 4; 3; 4; 3; 4; 3; 4] /\ files "ds" s "0.1"%string = Some [3; 4; 7; 0; 3; 4; 7; 0]).
Proof.
  split; [exact ex_zarr_ok|]. split; [right; reflexivity|]. split; [reflexivity|].
  split; [split; [split; cbn; lia|repeat constructor]|]. split; [constructor|].
  split; [exists 1%nat, Refused, 2%nat; split; [now left|reflexivity]|]. split; [vm_compute; auto|].
  split; [exists 3%nat, Lost, 1%nat; split; [right; now left|reflexivity]|]. vm_compute; auto.
Qed.
Example C105_sharded_case :
  sharded_ok ex_sharded /\ fs_separator (k_delim (d_key (sd_base ex_sharded))) /\
  cut_off (S3 [] [Served; Served; Refused; Refused]) /\
  (let '(s, r) := g_sh_write_request (s3_policy "ds") ex_sharded (FromScalar [3; 4]) [0; 0] [2; 3] (S3 [] [Served; Served; Refused; Refused]) in
   fates s = [Refused] /\ r = Throw ERuntime /\
   (exists f, files "ds" s "c/0/0"%string = Some f) /\ files "ds" s "c/0/1"%string = None).
Proof.
  split; [exact ex_sharded_ok|]. split; [left; reflexivity|]. split; [exists 2%nat, Refused, 1%nat; split; [now left|reflexivity]|].
  vm_compute. repeat split. eexists. reflexivity.
Qed.
