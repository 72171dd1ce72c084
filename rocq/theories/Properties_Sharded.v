(** Properties C20, C27 - C29, C32 - C34 and C42: sharded datasets and layouts. *)
From Verif Require Import M_Base M_Text M_Key M_Blocking M_View M_Bytes M_N5Header M_Format M_Mode M_Shard
  M_Dataset M_Sharded M_Access
  S_Array S_Grid S_Bytes S_Crc S_Text S_Format S_Shard S_Dataset S_Access S_Sharded
  P_Base P_Blocking P_Roi P_View P_Bytes P_Key P_Format P_Shard P_Dataset P_Access P_Read P_History P_Sharded
  P_ShardedApi Properties_Dataset Properties_Access.
Import List ListNotations.
Local Open Scope list_scope.
Local Open Scope N_scope.

(** A sharded 5 x 3 dataset: 2 x 2 chunks, shards of 2 x 1 chunks. *)
Definition ex_sharded : sharded :=
  Sharded (Dataset [5; 3] [2; 2] (KeyConfig true "/" 3 "default") (ElemType 2 false) [7; 0] raw_codec Mode_a) [4; 2] [2; 1].
Lemma ex_sharded_ok : sharded_ok ex_sharded.
Proof.
  split.
  - destruct ex_zarr_ok as [H1 H2 H3 H4 H5 H6 H7 H8]. split; auto; left; reflexivity.
  - reflexivity.
  - cbn. lia.
  - exists 8. split; [rewrite W64_val; reflexivity|].
    intros data [L F] e He. cbn [sd_base ex_sharded d_codec raw_codec cd_raw] in *. cbn in He. subst e. rewrite (@lenN_concat 2).
    + change (lenN data = 4) in L. rewrite L. split; [reflexivity|discriminate].
    + eapply Forall_impl; [|exact F]. intros e [He _]. exact He.
Qed.
Lemma ex_sharded_ops : Forall (array_op_ok (sd_base ex_sharded)) ex_ops.
Proof. exact (ex_ops_ok true). Qed.

(** C32: a sharded dataset behaves like an n-dimensional array under histories that
    mix sub-array, scalar and single chunk writes and removals. *)
Theorem C32_sharded_array sd ops st : sharded_ok sd -> can_write (d_mode (sd_base sd)) = true ->
  Forall (array_op_ok (sd_base sd)) ops ->
  (forall c, valid_chunk (d_shape (sd_base sd)) (d_chunks (sd_base sd)) c -> st (shard_key sd c) = None) ->
  exists st', run_sharded_ops sd ops st = (st', Ok tt) /\
    (forall ov off out, region_ok (sd_base sd) off (v_shape ov) -> out_view_ok ov (lenN out) ->
      exists out', sh_read_subarray sd st' ov off out = Ok out' /\ lenN out' = lenN out /\
        (forall i, in_shape (v_shape ov) i -> exists v,
           getN out' (v_off ov + lin (v_strides ov) i) = Ok v /\
           same_value (sd_base sd) v (apply_ops (sd_base sd) ops (fun _ => d_fill (sd_base sd)) (vadd off i)) /\
           (t_float (d_type (sd_base sd)) = false ->
              v = apply_ops (sd_base sd) ops (fun _ => d_fill (sd_base sd)) (vadd off i))) /\
        (forall a, (forall i, in_shape (v_shape ov) i -> a <> v_off ov + lin (v_strides ov) i) ->
           getN out' a = getN out a)) /\
    (forall k, (forall c, valid_chunk (d_shape (sd_base sd)) (d_chunks (sd_base sd)) c -> k <> shard_key sd c) ->
       st' k = st k).
Proof. exact (@sharded_theorem sd ops st). Qed.
Print Assumptions C32_sharded_array.

Example C32_case :
  sharded_ok ex_sharded /\ Forall (array_op_ok (sd_base ex_sharded)) ex_ops /\
  region_ok (sd_base ex_sharded) [1; 0] (v_shape ex_out) /\ out_view_ok ex_out 15 /\
  (let (st, _) := run_sharded_ops ex_sharded ex_ops (fun _ => None) in
   sh_read_subarray ex_sharded st ex_out [1; 0] (repeat [0; 0] 15)) =
    Ok [[0;0]; [0;0]; [7;0]; [1;0]; [0;0]; [7;0]; [2;0]; [0;0]; [7;0]; [3;0]; [0;0]; [9;1]; [9;1]; [0;0]; [0;0]].
Proof.
  split; [exact ex_sharded_ok|]. split; [exact ex_sharded_ops|]. split; [repeat constructor; cbn; lia|].
  split; [exact ex_out_ok|]. vm_compute. reflexivity.
Qed.

(** C33, sharded datasets. *)
Theorem C33_scalar_sharded sd off n src x : sharded_ok sd -> region_ok (sd_base sd) off n -> const_source n src x ->
  forall st, sh_write_request sd src off n st = sh_write_request sd (FromScalar x) off n st.
Proof. exact (@scalar_sharded sd off n src x). Qed.
Print Assumptions C33_scalar_sharded.
Example C33_sharded_case :
  sharded_ok ex_sharded /\ region_ok (sd_base ex_sharded) [1; 1] [3; 2] /\
  const_source [3; 2] (FromView (View 0 [3; 2] [0; 1]) [[9; 1]; [9; 1]]) [9; 1].
Proof. split; [exact ex_sharded_ok|]. split; [repeat constructor; cbn; lia|]. apply C33_case. Qed.

(** C28, sharded datasets. *)
Theorem C28_readonly_sharded sd calls st : can_write (d_mode (sd_base sd)) = false ->
  fst (run_caught (map (run_sharded_call sd) calls) st) = st /\
  Forall (fun o => o <> Ok tt) (snd (run_caught (map (run_sharded_call sd) calls) st)).
Proof. exact (@readonly_sharded sd calls st). Qed.
Print Assumptions C28_readonly_sharded.
Example C28_sharded_case :
  let sd := Sharded ex_ro [4; 2] [2; 1] in
  can_write (d_mode (sd_base sd)) = false /\
  snd (run_caught (map (run_sharded_call sd)
         [SCallWrite [0; 0] [2; 2] (FromScalar [1; 1]); SCallChunk [0; 0] [[1; 1]; [1; 1]; [1; 1]; [1; 1]] false;
          SCallRemove [0; 0]]) (fun _ => None))
    = [Throw EInvalidArgument; Throw EInvalidArgument; Throw EInvalidArgument].
Proof. split; reflexivity. Qed.

(** C27, sharded datasets: chunk_exists and read_chunk after any history of chunk
    operations. *)
Theorem C27_sharded_chunk_map sd ops st : sharded_ok sd -> can_write (d_mode (sd_base sd)) = true ->
  Forall (fun o => op_ok (sd_base sd) o /\ fixed_op o) ops ->
  (forall c, valid_chunk (d_shape (sd_base sd)) (d_chunks (sd_base sd)) c -> st (shard_key sd c) = None) ->
  exists st', run_shard_ops sd ops st = (st', Ok tt) /\
    (forall c, valid_chunk (d_shape (sd_base sd)) (d_chunks (sd_base sd)) c ->
      let r := last_result (sd_base sd) ops c None in
      sh_chunk_exists sd st' c = Ok (match r with None => false | Some _ => true end) /\
      (forall vl data, r = Some (vl, data) ->
         forall out, buffer_of (t_width (d_type (sd_base sd))) (prod (d_chunks (sd_base sd))) out ->
         vl = false /\ sh_read_chunk sd st' c out = Ok (false, data))) /\
    (forall k, (forall o, In o ops -> k <> shard_key sd (op_chunk o)) -> st' k = st k).
Proof. exact (@shard_chunk_map sd ops st). Qed.
Print Assumptions C27_sharded_chunk_map.

Definition ex_shard_ops : list chunk_op :=
  [OpWrite [0; 0] [[1; 0]; [2; 0]; [3; 0]; [4; 0]]; OpWrite [1; 0] [[5; 0]; [2; 0]; [3; 0]; [4; 0]];
   OpWrite [2; 1] [[7; 0]; [7; 0]; [7; 0]; [7; 0]]; OpRemove [0; 0]].
Example C27_sharded_case :
  sharded_ok ex_sharded /\ Forall (fun o => op_ok (sd_base ex_sharded) o /\ fixed_op o) ex_shard_ops /\
  last_result (sd_base ex_sharded) ex_shard_ops [0; 0] None = None /\
  last_result (sd_base ex_sharded) ex_shard_ops [2; 1] None = None /\
  last_result (sd_base ex_sharded) ex_shard_ops [1; 0] None = Some (false, [[5; 0]; [2; 0]; [3; 0]; [4; 0]]).
Proof.
  split; [exact ex_sharded_ok|]. split; [|repeat split].
  assert (B : forall x y : N, x < 256 -> y < 256 -> lenN [x; y] = 2 /\ Forall is_byte [x; y])
    by (intros; repeat constructor; auto).
  repeat (apply Forall_cons; [split; [|exact I]|]); [..|constructor]; cbn [op_ok];
    try (split; [cbn; lia|split; [reflexivity|]]; repeat (apply Forall_cons; [apply B; lia|]); constructor).
Qed.

(** C29, sharded datasets: writes are refused ... *)
Theorem C29_sharded_write_partial sd ids : sharded_ok sd ->
  ~ valid_chunk (d_shape (sd_base sd)) (d_chunks (sd_base sd)) ids ->
  (length (d_chunks (sd_base sd)) <= length ids)%nat ->
  forall data vl st, exists e, sh_write_chunk sd ids data vl st = (st, Throw e).
Proof. exact (@shard_invalid_write sd ids). Qed.
Print Assumptions C29_sharded_write_partial.
(** ... but reads are not checked: reading a chunk outside of the grid, or a missing
    one, succeeds with the old contents of the buffer if the codec is raw; removing
    it succeeds, too. *)
Theorem C29_sharded_read_refuted : exists sd ids, sharded_ok sd /\
  ~ valid_chunk (d_shape (sd_base sd)) (d_chunks (sd_base sd)) ids /\
  (forall out, buffer_of 2 4 out -> sh_read_chunk sd (fun _ => None) ids out = Ok (false, out)) /\
  snd (sh_remove_chunk sd ids (fun _ => None)) = Ok tt.
Proof.
  exists ex_sharded, [7; 9]. split; [exact ex_sharded_ok|]. split; [cbn; lia|]. split; [|reflexivity].
  intros out Ho. pose proof (buffer_widths Ho) as W.
  assert (R : sh_read_chunk ex_sharded (fun _ => None) [7; 9] out = (let! o := put_bytes 2 out [] in Ok (false, o))) by reflexivity.
  rewrite R. change (@nil N) with (concat (@nil cell)). rewrite put_bytes_cells; [reflexivity|constructor|exact W|].
  rewrite lenN_nil. lia.
Qed.
Print Assumptions C29_sharded_read_refuted.

(** C34: which layout holds the data cannot be observed by sub-array access. *)
Theorem C34_layout_unobservable l1 l2 ops st1 st2 :
  layout_ok l1 -> layout_ok l2 ->
  d_shape (base l1) = d_shape (base l2) -> d_type (base l1) = d_type (base l2) -> d_fill (base l1) = d_fill (base l2) ->
  can_write (d_mode (base l1)) = true -> can_write (d_mode (base l2)) = true ->
  Forall region_op ops -> Forall (array_op_ok (base l1)) ops -> Forall (array_op_ok (base l2)) ops ->
  layout_empty l1 st1 -> layout_empty l2 st2 ->
  exists st1' st2', run_layout l1 ops st1 = (st1', Ok tt) /\ run_layout l2 ops st2 = (st2', Ok tt) /\
    forall ov off out, region_ok (base l1) off (v_shape ov) -> region_ok (base l2) off (v_shape ov) ->
      out_view_ok ov (lenN out) ->
      exists out1 out2, read_layout l1 st1' ov off out = Ok out1 /\ read_layout l2 st2' ov off out = Ok out2 /\
        (forall i, in_shape (v_shape ov) i -> exists v1 v2,
           getN out1 (v_off ov + lin (v_strides ov) i) = Ok v1 /\
           getN out2 (v_off ov + lin (v_strides ov) i) = Ok v2 /\ same_value (base l1) v1 v2) /\
        (t_float (d_type (base l1)) = false -> out1 = out2).
Proof. exact (@layout_unobservable l1 l2 ops st1 st2). Qed.
Print Assumptions C34_layout_unobservable.
Example C34_case :
  layout_ok (Shards ex_sharded) /\ layout_ok (Plain ex_n5) /\
  d_shape (base (Shards ex_sharded)) = d_shape (base (Plain ex_n5)) /\
  d_fill (base (Shards ex_sharded)) = d_fill (base (Plain ex_n5)) /\
  let ops := [AWrite [4; 0] [1; 2] (FromScalar [9; 1]); AWrite [0; 0] [5; 1] (FromScalar [8; 0])] in
  Forall region_op ops /\ Forall (array_op_ok (base (Shards ex_sharded))) ops /\ Forall (array_op_ok (base (Plain ex_n5))) ops.
Proof.
  split; [exact ex_sharded_ok|]. split; [exact ex_n5_ok|]. split; [reflexivity|]. split; [reflexivity|].
  split; [repeat constructor|].
  split; (repeat (apply Forall_cons); [..|constructor]; (split; [repeat constructor; cbn; lia|repeat constructor])).
Qed.

(** C42: single chunk operations on a shard with an invalid index fail and change
    nothing, on any store. *)
Theorem C42_corrupt_chunks sd st c : sharded_ok sd ->
  valid_chunk (d_shape (sd_base sd)) (d_chunks (sd_base sd)) c -> corrupt sd st c ->
  (forall out, sh_read_chunk sd st c out = Throw ERuntime) /\
  sh_read_raw_chunk sd st c = Throw ERuntime /\
  sh_chunk_exists sd st c = Throw ERuntime /\
  (can_write (d_mode (sd_base sd)) = true ->
   forall data, buffer_of (t_width (d_type (sd_base sd))) (prod (d_chunks (sd_base sd))) data ->
     sh_write_chunk sd c data false st = (st, Throw ERuntime)) /\
  sh_remove_chunk sd c st = (st, Throw ERuntime).
Proof. intros H. exact (corrupt_chunks H (st := st) (c := c)). Qed.
Print Assumptions C42_corrupt_chunks.

(** C42: no sequence of calls with any arguments changes the bytes of a corrupt
    shard. *)
Theorem C42_never_overwritten sd calls st c : sharded_ok sd -> corrupt sd st c ->
  fst (run_caught (map (run_sharded_call sd) calls) st) (shard_key sd c) = st (shard_key sd c).
Proof. intros H. exact (corrupt_kept H calls (st := st) (c := c)). Qed.
Print Assumptions C42_never_overwritten.

(** C42: sub-array access to a dataset in which any number of shards was damaged:
    regions that need a damaged shard fail, all others read correctly. *)
Theorem C42_corrupt_regions sd ops st st1 st2 : sharded_ok sd -> can_write (d_mode (sd_base sd)) = true ->
  Forall (array_op_ok (sd_base sd)) ops ->
  (forall c, valid_chunk (d_shape (sd_base sd)) (d_chunks (sd_base sd)) c -> st (shard_key sd c) = None) ->
  run_sharded_ops sd ops st = (st1, Ok tt) -> damaged sd st1 st2 ->
  forall off n, region_ok (sd_base sd) off n ->
  (exists c, overlaps (d_shape (sd_base sd)) (d_chunks (sd_base sd)) off n c /\ corrupt sd st2 c) ->
  (forall ov out, v_shape ov = n -> out_view_ok ov (lenN out) ->
     sh_read_subarray sd st2 ov off out = Throw ERuntime) /\
  (forall src, source_ok (t_width (d_type (sd_base sd))) n src ->
     snd (sh_write_request sd src off n st2) = Throw ERuntime /\
     forall c, corrupt sd st2 c -> fst (sh_write_request sd src off n st2) (shard_key sd c) = st2 (shard_key sd c)).
Proof. exact (@corrupt_regions sd ops st st1 st2). Qed.
Print Assumptions C42_corrupt_regions.
Theorem C42_intact_regions sd ops st st1 st2 : sharded_ok sd -> can_write (d_mode (sd_base sd)) = true ->
  Forall (array_op_ok (sd_base sd)) ops ->
  (forall c, valid_chunk (d_shape (sd_base sd)) (d_chunks (sd_base sd)) c -> st (shard_key sd c) = None) ->
  run_sharded_ops sd ops st = (st1, Ok tt) -> damaged sd st1 st2 ->
  forall ov off out, region_ok (sd_base sd) off (v_shape ov) -> out_view_ok ov (lenN out) ->
  (forall c, overlaps (d_shape (sd_base sd)) (d_chunks (sd_base sd)) off (v_shape ov) c -> ~ corrupt sd st2 c) ->
  exists out', sh_read_subarray sd st2 ov off out = Ok out' /\
    forall i, in_shape (v_shape ov) i -> exists v,
      getN out' (v_off ov + lin (v_strides ov) i) = Ok v /\
      same_value (sd_base sd) v (apply_ops (sd_base sd) ops (fun _ => d_fill (sd_base sd)) (vadd off i)).
Proof. exact (@intact_regions sd ops st st1 st2). Qed.
Print Assumptions C42_intact_regions.

(** C20: a shard whose footer was damaged by a burst of at most 32 bits (whatever
    happened to its data region) is rejected by every access and never modified. *)
Theorem C20_damaged_shard_fails sd st c calls data data' footer footer' es : sharded_ok sd ->
  valid_chunk (d_shape (sd_base sd)) (d_chunks (sd_base sd)) c ->
  lenN footer = 16 * prod (sd_cps sd) + 4 -> all_bytes footer -> all_bytes footer' ->
  parse_shard_index (data ++ footer) (prod (sd_cps sd)) = Ok (Some es) ->
  burst footer footer' -> footer <> footer' ->
  st (shard_key sd c) = Some (data' ++ footer') ->
  (forall out, sh_read_chunk sd st c out = Throw ERuntime) /\
  sh_chunk_exists sd st c = Throw ERuntime /\
  sh_remove_chunk sd c st = (st, Throw ERuntime) /\
  fst (run_caught (map (run_sharded_call sd) calls) st) (shard_key sd c) = Some (data' ++ footer').
Proof.
  intros H Hc L A1 A2 P B N Hst.
  assert (X : corrupt sd st c) by (eexists; split; [exact Hst|exact (damaged_index_rejected data' L A1 A2 P B N)]).
  destruct (corrupt_chunks H Hc X) as (R1 & _ & R2 & _ & R3). rewrite <- Hst.
  split; [exact R1|]. split; [exact R2|]. split; [exact R3|]. exact (corrupt_kept H calls X).
Qed.
Print Assumptions C20_damaged_shard_fails.

(** The store of [C32_case] with the shard (0, 0) cut off. *)
Example C42_case :
  let st1 := fst (run_sharded_ops ex_sharded ex_ops (fun _ => None)) in
  let st2 := set_key st1 (shard_key ex_sharded [0; 0]) (Some [1; 2; 3]) in
  st1 (shard_key ex_sharded [0; 0]) <> None /\ damaged ex_sharded st1 st2 /\ corrupt ex_sharded st2 [0; 0] /\
  ~ corrupt ex_sharded st2 [2; 0] /\
  sh_read_subarray ex_sharded st2 (make_view [1; 2]) [4; 0] [[0; 0]; [0; 0]] = Ok [[9; 1]; [9; 1]] /\
  sh_read_subarray ex_sharded st2 (make_view [2; 2]) [3; 0] [[0; 0]; [0; 0]; [0; 0]; [0; 0]] = Throw ERuntime.
Proof.
  split; [vm_compute; discriminate|]. split.
  - intros c Hc. unfold set_key. destruct (String.eqb _ _) eqn:E; [right|left; reflexivity].
    exists [1; 2; 3]. split; [|reflexivity]. unfold set_key. rewrite E. reflexivity.
  - split; [exists [1; 2; 3]; split; reflexivity|]. split.
    + intros (bytes & H & P). vm_compute in H. injection H as <-. vm_compute in P. discriminate.
    + split; vm_compute; reflexivity.
Qed.
