(** Clients of a dataset in an object store that work on different chunks or shards. *)
From Coq Require Import String.
From Verif Require Import M_Base M_Text M_Key M_Blocking M_View M_Bytes M_N5Header M_Format
  M_Mode M_Shard M_Dataset M_Sharded M_Access M_Pool M_Parallel M_Lock M_Clients M_S3Clients
  S_Array S_Grid S_Bytes S_Text S_Format S_Shard S_Dataset S_Sharded S_Access S_File S_Pool S_Parallel S_Lock S_Clients S_S3Clients
  P_Base P_Blocking P_Roi P_View P_Bytes P_Key P_Format P_Shard P_Dataset P_Access P_Read P_History P_Sharded P_ShardedApi P_File P_Pool
  P_Foreach P_Parallel P_ParWrite P_ParSharded P_ParHistory P_Lock P_Clients P_Clients2 P_S3Clients.
Import List ListNotations.
Local Open Scope list_scope.
Local Open Scope N_scope.
Local Notation length := List.length.

(** ** Plain datasets *)
Section Plain.
Variable d : dataset.
Hypothesis ok : dataset_ok d.
Hypothesis Hw : can_write (d_mode d) = true.
Notation w := (t_width (d_type d)).
Notation s := (d_shape d).
Notation b := (d_chunks d).
Notation valid := (valid_chunk (d_shape d) (d_chunks d)).
Notation key := (chunk_key (d_key d)).

Lemma s3_conf_chunk c data o (W R : ploc -> Prop) : valid c -> W (inl (key c)) ->
  pconf W R (s3_write_chunk_code d c data (Ret o)).
Proof using ok.
  intros Hc HW. unfold s3_write_chunk_code. destruct (negb _); [constructor|].
  rewrite (handle_ok ok Hc). cbn [plet ch_key]. apply conf_plet. intros _ _. apply conf_plet. intros ob _.
  destruct ob as [v|]; apply conf_pset; solve [exact HW|constructor].
Qed.
Lemma s3_conf c : client_call_ok d c -> pconf (wlocs (pw d) c) (rlocs (pr d) c) (cb_code (s3_body d c)).
Proof using ok.
  destruct c as [ov off out|[off n src|c data|c]]; cbn [client_call_ok array_op_ok s3_body]; intros Hc.
  - exact (@plain_conf d ok (KRead ov off out) Hc).
  - destruct Hc as [Hreg Hs]. cbn [s3_write_call no_output cb_code]. destruct (begin_request_ok ok Hreg) as (l & E & _ & _ & HI).
    rewrite E. cbn [plet]. apply conf_batch. intros u bf Hu. pose proof (overlaps_valid (proj1 (HI u) Hu)) as Hv.
    assert (HW : wlocs (pw d) (KOp (AWrite off n src)) (inl (key u))) by (cbn; unfold reqs_of; rewrite E; now apply in_map).
    unfold s3_write_unit_code. rewrite (handle_ok ok Hv). cbn [plet ch_key].
    apply conf_pread; [now left|]. intros f1. apply conf_pread; [now left|]. intros f2. apply conf_plet. intros buf' _.
    now apply s3_conf_chunk.
  - destruct Hc as [Hc Hd]. apply s3_conf_chunk; [exact Hc|]. cbn. auto.
  - exact (@plain_conf d ok (KOp (ARemove c)) Hc).
Qed.

Theorem s3_clients pre st00 st0 calls y : Forall (array_op_ok d) pre ->
  (forall c, valid c -> st00 (key c) = None) -> run_array_ops d pre st00 = (st0, Ok tt) ->
  Forall (Forall (client_call_ok d)) calls -> apart d (fun x => x) calls ->
  reach (clients_step (s3_body d)) (clients_init st0 calls) y ->
  let a0 := apply_ops d pre (fun _ => d_fill d) in
  (forall t cs, nth_error calls t = Some cs -> exists rest, cs = calls_by t (k_log y) ++ rest /\
     answers_of d a0 (calls_by t (k_log y)) (answers_to t (k_log y)) /\ (all_answered y -> rest = []) /\
     (forall x ov off out, nth_error (k_clients y) t = Some (KIdle, x) ->
        region_ok d off (v_shape ov) -> out_view_ok ov (lenN out) ->
        (forall t' cs' c u v, t' <> t -> nth_error calls t' = Some cs' -> In c cs' -> changes d c u ->
           overlaps s b off (v_shape ov) v -> u <> v) ->
        exists out', read_subarray d (k_files y) ov off out = Ok out' /\
          shows_region d (apply_ops d (ops_of (calls_by t (k_log y))) a0) ov off out out')) /\
  (forall order, interleaving calls order -> all_answered y ->
     (exists st2, run_array_ops d (ops_of order) st0 = (st2, Ok tt) /\ forall k, k_files y k = st2 k) /\
     forall ov off out, region_ok d off (v_shape ov) -> out_view_ok ov (lenN out) ->
       exists out', read_subarray d (k_files y) ov off out = Ok out' /\
         shows_region d (apply_ops d (ops_of order) a0) ov off out out').
Proof using ok Hw.
  intros Hpre He Er HG HA R a0.
  destruct (run_array_ops_spec ok Hw Hpre (holds_empty He) (@represents_empty d)) as (st1 & C1 & E1 & HC & HR & _).
  rewrite Er in E1. injection E1 as <-.
  exact (@array_clients d ok (s3_body d) (run_array_op d) (read_subarray d) (fun x => x) (pw d) (pr d) (holds d)
    s3_conf (@pw_ok d ok) (@pr_ok d ok) (fun st st' C E => holds_ext E) (@val_cell d ok) (@s3_op d ok Hw) (@s3_read d ok) (@read_local d ok)
    st0 C1 a0 calls y HC HR (@apply_ops_cells d ok pre Hpre _ (fun _ _ => do_fill ok)) HG HA R).
Qed.
End Plain.

(** ** Sharded datasets *)
Section Sharded.
Variable sd : sharded.
Hypothesis sok : sharded_ok sd.
Hypothesis Hw : can_write (d_mode (sd_base sd)) = true.
Variable m : N.
Notation d := (sd_base sd).
Notation w := (t_width (d_type (sd_base sd))).
Notation s := (d_shape (sd_base sd)).
Notation b := (d_chunks (sd_base sd)).
Notation cps := (sd_cps sd).
Notation valid := (valid_chunk (d_shape (sd_base sd)) (d_chunks (sd_base sd))).
Notation ok := (so_base sok).
Notation key := (chunk_key (d_key (sd_base sd))).
Hypothesis m_total : prod (sd_cps sd) * m < W64 - 1.
Hypothesis m_blob : forall data, buffer_of (t_width (d_type (sd_base sd))) (prod (d_chunks (sd_base sd))) data ->
      forall e, stored_as (d_codec (sd_base sd)) (concat data) e -> 0 < lenN e /\ lenN e <= m.
Notation all_shards := (fun _ : shape => True).
Notation holds_all := (holds_sh sd m (own_blob sd) own_shard all_shards).

Lemma s3_conf_blobs coord blobs o (W R : ploc -> Prop) : length coord = length b -> W (inl (key coord)) ->
  pconf W R (s3_write_blobs_code sd coord blobs (Ret o)).
Proof using sok.
  intros LK HW. unfold s3_write_blobs_code. destruct (negb _); [constructor|].
  destruct (shard_handle_ok sok LK) as [bs ->]. cbn [plet ch_key].
  destruct (all_slots_empty _); apply conf_pset; solve [exact HW|constructor].
Qed.
Lemma s3_conf_inner c blob (W R : ploc -> Prop) : valid c -> W (inl (key (shard_of cps c))) ->
  pconf W R (s3_inner_blob_code sd c blob).
Proof using sok.
  intros Hc HW. pose proof (shard_of_len sok (valid_len Hc)) as LK. unfold s3_inner_blob_code.
  apply conf_plet. intros k Ek.
  rewrite (@shard_id_spec c _ (cps_pos sok)) in Ek by (rewrite (cps_len sok); now apply valid_len). injection Ek as <-.
  apply conf_plet. intros sl _. destruct (shard_handle_ok sok LK) as [bs Eh]. rewrite Eh. cbn [plet ch_key].
  apply conf_pread; [now left|]. intros f. apply conf_plet. intros bls _. apply conf_plet. intros bls' _.
  now apply s3_conf_blobs.
Qed.

Lemma s3_sharded_conf c : client_call_ok d c -> pconf (wlocs (spw sd) c) (rlocs (spr sd) c) (cb_code (s3_sharded_body sd c)).
Proof using sok Hw.
  destruct c as [ov off out|[off n src|c data|c]]; cbn [client_call_ok array_op_ok s3_sharded_body]; intros Hc.
  - exact (@sharded_conf sd sok Hw (KRead ov off out) Hc).
  - destruct Hc as [Hreg Hs]. cbn [s3_sh_write_call no_output cb_code].
    destruct (groups_are sok Hreg) as (_ & E & HG).
    assert (E' : (let! reqs := begin_request d off n in if negb (can_write (d_mode d)) then Throw EInvalidArgument else
       let! cps' := chunks_per_shard (sd_shard sd) b in group_chunks cps' reqs) = Ok (groups_of sd off n)).
    { rewrite <- E. rewrite Hw. reflexivity. }
    rewrite E'. cbn [plet]. unfold foreach_sequential.
    change (fun (_ : nat) (g : shape * list shape) => s3_shard_write_unit_code sd src off n g)
      with (fun _ : nat => s3_shard_write_unit_code sd src off n).
    apply conf_batch. intros [k cs] bf Hg. destruct (HG _ Hg) as [LK _]. cbn [fst] in LK.
    assert (HW : wlocs (spw sd) (KOp (AWrite off n src)) (inl (key k))).
    { cbn. now apply (in_map (fun g => key (fst g))) in Hg. }
    unfold s3_shard_write_unit_code. cbn [fst snd]. destruct (shard_handle_ok sok LK) as [bs Eh]. rewrite Eh. cbn [plet ch_key].
    apply conf_pread; [now left|]. intros f. apply conf_plet. intros r _. now apply s3_conf_blobs.
  - destruct Hc as [Hc Hd]. cbn [s3_sh_write_chunk_call no_output cb_code]. apply conf_plet. intros blob _.
    apply s3_conf_inner; [exact Hc|]. cbn. auto.
  - cbn [s3_sh_remove_chunk_call no_output cb_code]. apply s3_conf_inner; [exact Hc|]. cbn. auto.
Qed.

Lemma s3_sharded_clients_m pre st00 st0 calls y : Forall (array_op_ok d) pre ->
  (forall c, valid c -> st00 (shard_key sd c) = None) -> run_sharded_ops sd pre st00 = (st0, Ok tt) ->
  Forall (Forall (client_call_ok d)) calls -> apart d (shard_of cps) calls ->
  reach (clients_step (s3_sharded_body sd)) (clients_init st0 calls) y ->
  let a0 := apply_ops d pre (fun _ => d_fill d) in
  (forall t cs, nth_error calls t = Some cs -> exists rest, cs = calls_by t (k_log y) ++ rest /\
     answers_of d a0 (calls_by t (k_log y)) (answers_to t (k_log y)) /\ (all_answered y -> rest = []) /\
     (forall x ov off out, nth_error (k_clients y) t = Some (KIdle, x) ->
        region_ok d off (v_shape ov) -> out_view_ok ov (lenN out) ->
        (forall t' cs' c u v, t' <> t -> nth_error calls t' = Some cs' -> In c cs' -> changes d c u ->
           overlaps s b off (v_shape ov) v -> shard_of cps u <> shard_of cps v) ->
        exists out', sh_read_subarray sd (k_files y) ov off out = Ok out' /\
          shows_region d (apply_ops d (ops_of (calls_by t (k_log y))) a0) ov off out out')) /\
  (forall order, interleaving calls order -> all_answered y ->
     (exists st2, run_sharded_ops sd (ops_of order) st0 = (st2, Ok tt) /\ forall k, k_files y k = st2 k) /\
     forall ov off out, region_ok d off (v_shape ov) -> out_view_ok ov (lenN out) ->
       exists out', sh_read_subarray sd (k_files y) ov off out = Ok out' /\
         shows_region d (apply_ops d (ops_of order) a0) ov off out out').
Proof using sok Hw m_total m_blob.
  intros Hpre He Er HG HA R a0.
  destruct (@run_sharded_ops_spec sd sok m m_total m_blob (own_blob sd) (@own_blob_ok sd) own_shard (@own_shard_ok sd) all_shards
    pre (fun _ => Logic.I) Hw Hpre st00 (fun _ => None) (fun _ => d_fill d)
    (@holds_sh_empty sd sok m m_total m_blob (own_blob sd) (@own_blob_ok sd) own_shard (@own_shard_ok sd) all_shards st00 He)
    (@represents_empty d)) as (st1 & C1 & E1 & HC & HR & _).
  rewrite Er in E1. injection E1 as <-.
  exact (@array_clients d ok (s3_sharded_body sd) (run_sharded_op sd) (sh_read_subarray sd) (shard_of cps) (spw sd) (spr sd) holds_all
    s3_sharded_conf (@spw_ok sd sok) (@spr_ok sd sok) (fun st st' C E => @holds_sh_ext sd m st st' C E)
    (fun st C x HC Hx => @val_cell_sh sd sok m (own_blob sd) own_shard all_shards st C x Logic.I HC Hx)
    (@s3_sharded_op sd sok Hw m m_total m_blob) (@s3_sharded_read sd sok m m_total m_blob) (@sh_read_local sd sok)
    st0 C1 a0 calls y HC HR (@apply_ops_cells d ok pre Hpre _ (fun _ _ => do_fill ok)) HG HA R).
Qed.
End Sharded.

Theorem s3_sharded_clients sd pre st00 st0 calls y : sharded_ok sd -> can_write (d_mode (sd_base sd)) = true ->
  Forall (array_op_ok (sd_base sd)) pre ->
  (forall c, valid_chunk (d_shape (sd_base sd)) (d_chunks (sd_base sd)) c -> st00 (shard_key sd c) = None) ->
  run_sharded_ops sd pre st00 = (st0, Ok tt) ->
  Forall (Forall (client_call_ok (sd_base sd))) calls -> apart (sd_base sd) (shard_of (sd_cps sd)) calls ->
  reach (clients_step (s3_sharded_body sd)) (clients_init st0 calls) y ->
  let a0 := apply_ops (sd_base sd) pre (fun _ => d_fill (sd_base sd)) in
  (forall t cs, nth_error calls t = Some cs -> exists rest, cs = calls_by t (k_log y) ++ rest /\
     answers_of (sd_base sd) a0 (calls_by t (k_log y)) (answers_to t (k_log y)) /\ (all_answered y -> rest = []) /\
     (forall x ov off out, nth_error (k_clients y) t = Some (KIdle, x) ->
        region_ok (sd_base sd) off (v_shape ov) -> out_view_ok ov (lenN out) ->
        (forall t' cs' c u v, t' <> t -> nth_error calls t' = Some cs' -> In c cs' -> changes (sd_base sd) c u ->
           overlaps (d_shape (sd_base sd)) (d_chunks (sd_base sd)) off (v_shape ov) v -> shard_of (sd_cps sd) u <> shard_of (sd_cps sd) v) ->
        exists out', sh_read_subarray sd (k_files y) ov off out = Ok out' /\
          shows_region (sd_base sd) (apply_ops (sd_base sd) (ops_of (calls_by t (k_log y))) a0) ov off out out')) /\
  (forall order, interleaving calls order -> all_answered y ->
     (exists st2, run_sharded_ops sd (ops_of order) st0 = (st2, Ok tt) /\ forall k, k_files y k = st2 k) /\
     forall ov off out, region_ok (sd_base sd) off (v_shape ov) -> out_view_ok ov (lenN out) ->
       exists out', sh_read_subarray sd (k_files y) ov off out = Ok out' /\
         shows_region (sd_base sd) (apply_ops (sd_base sd) (ops_of order) a0) ov off out out').
Proof.
  intros sok Hw Hpre He Er HG HA R. destruct (so_blob sok) as (m & M1 & M2).
  exact (@s3_sharded_clients_m sd sok Hw m M1 M2 pre st00 st0 calls y Hpre He Er HG HA R).
Qed.
