(** Properties C85, C86, C88: datasets on a failing disk. *)
From Verif Require Import M_Base M_Text M_Key M_Blocking M_View M_Bytes M_N5Header M_Format
  M_Mode M_Shard M_Dataset M_Sharded M_Access M_Pool M_Parallel M_Crash M_Store M_S3 M_Disk
  S_Array S_Grid S_Bytes S_Text S_Format S_Shard S_Dataset S_Access S_Sharded S_File S_Pool S_Parallel S_Crash S_S3 S_Disk
  P_Base P_Dataset P_Access P_Sharded P_Disk P_Disk2 Properties_Dataset Properties_Access Properties_Sharded.
From Coq Require Import Sorted.
Import List ListNotations.
Local Open Scope list_scope.
Local Open Scope N_scope.

(** C85: readChunk, readRawChunk, chunkExists and readSubarray on a disk with failing
    accesses return what they return on a disk without failures, or throw; a failure
    is never taken for a missing chunk.  They never change a file. *)
Theorem C85_plain d c s : reads_only c ->
  let '(s', r) := call disk_policy d c s in
  disk_files s' = disk_files s /\ (r = snd (fs_call d c (disk_files s)) \/ exists e, disk_error e /\ r = Throw e).
Proof. exact (@read_failure d c s). Qed.
Print Assumptions C85_plain.
Theorem C85_sharded sd c s : reads_only c ->
  let '(s', r) := sh_call disk_policy sd c s in
  disk_files s' = disk_files s /\ (r = snd (fs_sh_call sd c (disk_files s)) \/ exists e, disk_error e /\ r = Throw e).
Proof. exact (@sh_read_failure sd c s). Qed.
Print Assumptions C85_sharded.

(** C85, C86: if no access fails then reads and writes do what the other properties
    say; in particular they do not throw because of the disk. *)
Theorem C85_no_failure d c s : all_works s ->
  let '(s', r) := call disk_policy d c s in (disk_files s', r) = fs_call d c (disk_files s).
Proof. exact (@calm_call d c s). Qed.
Print Assumptions C85_no_failure.
Theorem C85_sharded_no_failure sd c s : all_works s ->
  let '(s', r) := sh_call disk_policy sd c s in (disk_files s', r) = fs_sh_call sd c (disk_files s).
Proof. exact (@calm_sh_call sd c s). Qed.
Print Assumptions C85_sharded_no_failure.

(** One stored chunk: its size cannot be found out, then its data cannot be read, then
    everything works. *)
Definition ex_files : store := fst (run_array_ops ex_zarr [AWrite [0; 0] [2; 3] (FromScalar [1; 2])] (fun _ => None)).
Example C85_case :
  snd (history (call disk_policy ex_zarr) [KRaw [0; 0]; KRead [0; 0] (repeat [0; 0] 4); KExists [1; 0]; KRaw [0; 1]]
    (Disk ex_files [Works; Works; Fails 0; Works; Works; Works; Fails 3; Fails 0])) =
    [Throw ELogic; Throw ERuntime; Throw EFilesystem; Ok (ABytes [1; 2; 7; 0; 1; 2; 7; 0])].
Proof. vm_compute. reflexivity. Qed.

(** Asking whether a chunk of an n5 dataset has variable length is different: the file
    is read without a check, and a failure makes the answer undefined. *)
Theorem C85_header_refuted : exists d ids s, dataset_ok d /\ saves_all s /\
  snd (g_check_varlen disk_policy d ids (Disk (disk_files s) [])) = Ok (false, 4) /\
  snd (g_check_varlen disk_policy d ids s) = UB.
Proof.
  exists ex_n5, [0; 0], (Disk (fst (run_array_ops ex_n5 [AWrite [0; 0] [2; 3] (FromScalar [1; 2])] (fun _ => None))) [Works; Fails 0]).
  split; [exact ex_n5_ok|]. split; [intros n [H|[H|[]]]; discriminate H|]. split; vm_compute; reflexivity.
Qed.
Print Assumptions C85_header_refuted.

(** C86: writing or removing one chunk, if nothing is lost when files are closed.  The
    call does what it does without failures, or it throws; then the file of the chunk
    is the old one, or the new one up to some byte, and all other files are as before. *)
Theorem C86_chunk d ids c s : changes_chunk ids c -> saves_all s ->
  let '(s', r) := call disk_policy d c s in let '(st1, r1) := fs_call d c (disk_files s) in
  (r = r1 /\ disk_files s' = st1) \/
  (exists e, disk_error e /\ r = Throw e /\ interrupted [chunk_key (d_key d) ids] (disk_files s) st1 (disk_files s')).
Proof. exact (@chunk_write_failure d ids c s). Qed.
Print Assumptions C86_chunk.
Theorem C86_shard_chunk sd ids c s : sharded_ok sd -> changes_chunk ids c -> List.length ids = List.length (d_chunks (sd_base sd)) -> saves_all s ->
  let '(s', r) := sh_call disk_policy sd c s in let '(st1, r1) := fs_sh_call sd c (disk_files s) in
  (r = r1 /\ disk_files s' = st1) \/
  (exists e, disk_error e /\ r = Throw e /\
     interrupted [chunk_key (d_key (sd_base sd)) (shard_of (sd_cps sd) ids)] (disk_files s) st1 (disk_files s')).
Proof. intros H. exact (@sh_chunk_write_failure sd H ids c s). Qed.
Print Assumptions C86_shard_chunk.

(** C86: writing a region.  The call does what it does without failures, or it throws;
    then the chunks before the failure are new, those after it old, and the one at the
    failure may be cut. *)
Theorem C86_region d src off n s : dataset_ok d -> region_ok d off n -> saves_all s ->
  let '(s', r) := call disk_policy d (KWriteArray src off n) s in
  let '(st1, r1) := fs_call d (KWriteArray src off n) (disk_files s) in
  (r = r1 /\ disk_files s' = st1) \/
  (exists e, disk_error e /\ r = Throw e /\ exists cs, StronglySorted lex_lt cs /\
     (forall c, In c cs <-> overlaps (d_shape d) (d_chunks d) off n c) /\
     interrupted (map (chunk_key (d_key d)) cs) (disk_files s) st1 (disk_files s')).
Proof. intros H. exact (@array_write_failure d H src off n s). Qed.
Print Assumptions C86_region.
Theorem C86_shards sd src off n s : sharded_ok sd -> region_ok (sd_base sd) off n -> saves_all s ->
  let '(s', r) := sh_call disk_policy sd (KWriteArray src off n) s in
  let '(st1, r1) := fs_sh_call sd (KWriteArray src off n) (disk_files s) in
  (r = r1 /\ disk_files s' = st1) \/
  (exists e, disk_error e /\ r = Throw e /\ exists ks, NoDup ks /\
     (forall k, In k ks <-> exists c, overlaps (d_shape (sd_base sd)) (d_chunks (sd_base sd)) off n c /\ shard_of (sd_cps sd) c = k) /\
     interrupted (map (chunk_key (d_key (sd_base sd))) ks) (disk_files s) st1 (disk_files s')).
Proof. intros H. exact (@sh_array_write_failure sd H src off n s). Qed.
Print Assumptions C86_shards.

(** C86: what readers see after a write that threw.  After any history of successful
    calls and a failing write, every region that does not meet one certain chunk can
    be read, and each of its chunks is entirely as before or entirely as after the
    write. *)
Theorem C86_array d ops src off n st s s' e : dataset_ok d -> can_write (d_mode d) = true -> Forall (array_op_ok d) ops ->
  array_op_ok d (AWrite off n src) ->
  (forall c, valid_chunk (d_shape d) (d_chunks d) c -> st (chunk_key (d_key d) c) = None) ->
  run_array_ops d ops st = (disk_files s, Ok tt) -> saves_all s ->
  call disk_policy d (KWriteArray src off n) s = (s', Throw e) ->
  exists (fresh : shape -> bool) (cut : option shape),
    (forall c, cut = Some c -> overlaps (d_shape d) (d_chunks d) off n c) /\
    (forall c, fresh c = true -> overlaps (d_shape d) (d_chunks d) off n c) /\
    forall ov off' out, region_ok d off' (v_shape ov) -> out_view_ok ov (lenN out) ->
      (forall c, cut = Some c -> ~ overlaps (d_shape d) (d_chunks d) off' (v_shape ov) c) ->
      exists out', read_subarray d (disk_files s') ov off' out = Ok out' /\ lenN out' = lenN out /\
        forall i, in_shape (v_shape ov) i -> exists v,
          let expected := apply_ops d (ops ++ if fresh (chunk_of (d_chunks d) (vadd off' i)) then [AWrite off n src] else [])
                            (fun _ => d_fill d) (vadd off' i) in
          getN out' (v_off ov + lin (v_strides ov) i) = Ok v /\ same_value d v expected /\
          (t_float (d_type d) = false -> v = expected).
Proof. intros H. exact (@array_after_failure d H ops src off n st s s' e). Qed.
Print Assumptions C86_array.

(** C86: whatever fails, only the files of the chunks in question change. *)
Theorem C86_chunk_frame d ids c s k : changes_chunk ids c -> k <> chunk_key (d_key d) ids ->
  disk_files (fst (call disk_policy d c s)) k = disk_files s k.
Proof. exact (@chunk_write_frame d ids c s k). Qed.
Print Assumptions C86_chunk_frame.
Theorem C86_shard_chunk_frame sd ids c s k : sharded_ok sd -> changes_chunk ids c -> List.length ids = List.length (d_chunks (sd_base sd)) ->
  k <> chunk_key (d_key (sd_base sd)) (shard_of (sd_cps sd) ids) ->
  disk_files (fst (sh_call disk_policy sd c s)) k = disk_files s k.
Proof. intros H. exact (@sh_chunk_write_frame sd H ids c s k). Qed.
Print Assumptions C86_shard_chunk_frame.
Theorem C86_region_frame d src off n s k : dataset_ok d -> region_ok d off n ->
  (forall c, overlaps (d_shape d) (d_chunks d) off n c -> k <> chunk_key (d_key d) c) ->
  disk_files (fst (call disk_policy d (KWriteArray src off n) s)) k = disk_files s k.
Proof. intros H. exact (@array_write_frame d H src off n s k). Qed.
Print Assumptions C86_region_frame.
Theorem C86_shards_frame sd src off n s k : sharded_ok sd -> region_ok (sd_base sd) off n ->
  (forall c, overlaps (d_shape (sd_base sd)) (d_chunks (sd_base sd)) off n c -> k <> chunk_key (d_key (sd_base sd)) (shard_of (sd_cps sd) c)) ->
  disk_files (fst (sh_call disk_policy sd (KWriteArray src off n) s)) k = disk_files s k.
Proof. intros H. exact (@sh_array_write_frame sd H src off n s k). Qed.
Print Assumptions C86_shards_frame.

(** A write of two chunks; the disk is full after 3 bytes of the second one. *)
Definition ex_full : disk := Disk ex_files (repeat Works 9 ++ [Fails 3]).
Lemma ex_full_saves : saves_all ex_full.
Proof. intros n Hn. cbn in Hn. repeat destruct Hn as [Hn|Hn]; try discriminate Hn. exact Hn. Qed.
Definition ex_call : ds_call := KWriteArray (FromScalar [3; 4]) [0; 0] [2; 3].
Example C86_case :
  let '(s', r) := call disk_policy ex_zarr ex_call ex_full in
  dataset_ok ex_zarr /\ region_ok ex_zarr [0; 0] [2; 3] /\ saves_all ex_full /\ r = Throw ERuntime /\
  ex_files "0.1"%string = Some [1; 2; 7; 0; 1; 2; 7; 0] /\
  disk_files s' "0.0"%string = Some [3; 4; 3; 4; 3; 4; 3; 4] /\ disk_files s' "0.1"%string = Some [3; 4; 7].
Proof.
  assert (X : snd (call disk_policy ex_zarr ex_call ex_full) = Throw ERuntime /\ ex_files "0.1"%string = Some [1; 2; 7; 0; 1; 2; 7; 0] /\
    disk_files (fst (call disk_policy ex_zarr ex_call ex_full)) "0.0"%string = Some [3; 4; 3; 4; 3; 4; 3; 4] /\
    disk_files (fst (call disk_policy ex_zarr ex_call ex_full)) "0.1"%string = Some [3; 4; 7]) by (vm_compute; auto).
  destruct (call disk_policy ex_zarr ex_call ex_full) as [s' r]. split; [exact ex_zarr_ok|]. split; [split; cbn; lia|].
  split; [exact ex_full_saves|exact X].
Qed.

(** If data is lost when a file is closed then the call returns, and the chunk is
    lost: the file is not what was written, and not what was there before. *)
Theorem C86_lost_refuted : exists d ids data st s', dataset_ok d /\
  read_chunk d st ids (repeat [5; 5] 4) = Ok (false, [[1; 2]; [7; 0]; [1; 2]; [7; 0]]) /\
  call disk_policy d (KWrite ids data) (Disk st [Works; Works; Unsaved 3]) = (s', Ok AUnit) /\
  data = repeat [3; 4] 4 /\
  read_chunk d (disk_files s') ids (repeat [5; 5] 4) = Ok (false, [[3; 4]; [3; 5]; [5; 5]; [5; 5]]).
Proof.
  pose (s := Disk ex_files [Works; Works; Unsaved 3]).
  exists ex_zarr, [0; 1], (repeat [3; 4] 4), ex_files, (fst (call disk_policy ex_zarr (KWrite [0; 1] (repeat [3; 4] 4)) s)).
  split; [exact ex_zarr_ok|]. split; [vm_compute; reflexivity|]. split; [|split; [reflexivity|vm_compute; reflexivity]].
  fold s. assert (X : snd (call disk_policy ex_zarr (KWrite [0; 1] (repeat [3; 4] 4)) s) = Ok AUnit) by (vm_compute; reflexivity).
  destruct (call disk_policy ex_zarr (KWrite [0; 1] (repeat [3; 4] 4)) s) as [s' r]. cbn [fst snd] in *. now rewrite X.
Qed.
Print Assumptions C86_lost_refuted.

(** C88: repeating a write that died or threw, whatever was lost.  If every chunk of
    the region is replaced without looking at the old one then the second attempt has
    the result and leaves the files of an undisturbed write. *)
Theorem C88_after_crash d src off n st st' : dataset_ok d -> region_ok d off n ->
  (forall c, overlaps (d_shape d) (d_chunks d) off n c -> replaced d off n c) -> write_crash d src off n st st' ->
  snd (write_request d src off n st') = snd (write_request d src off n st) /\
  (snd (write_request d src off n st) = Ok tt -> forall k, fst (write_request d src off n st') k = fst (write_request d src off n st) k).
Proof. intros H. exact (@crash_repeated d H src off n st st'). Qed.
Print Assumptions C88_after_crash.
Theorem C88_after_failure d src off n s s' r : dataset_ok d -> region_ok d off n ->
  (forall c, overlaps (d_shape d) (d_chunks d) off n c -> replaced d off n c) ->
  call disk_policy d (KWriteArray src off n) s = (s', r) ->
  snd (write_request d src off n (disk_files s')) = snd (write_request d src off n (disk_files s)) /\
  (snd (write_request d src off n (disk_files s)) = Ok tt ->
   forall k, fst (write_request d src off n (disk_files s')) k = fst (write_request d src off n (disk_files s)) k).
Proof. intros H. exact (@failure_repeated d H src off n s s' r). Qed.
Print Assumptions C88_after_failure.

(** Chunk (0, 0) of the dataset, of which 3 bytes were written. *)
Definition ex_one : ds_call := KWriteArray (FromScalar [3; 4]) [0; 0] [2; 2].
Example C88_case :
  dataset_ok ex_zarr /\ region_ok ex_zarr [0; 0] [2; 2] /\
  (forall c, overlaps (d_shape ex_zarr) (d_chunks ex_zarr) [0; 0] [2; 2] c -> replaced ex_zarr [0; 0] [2; 2] c) /\
  snd (call disk_policy ex_zarr ex_one (Disk ex_files [Works; Fails 3])) = Throw ERuntime /\
  disk_files (fst (call disk_policy ex_zarr ex_one (Disk ex_files [Works; Fails 3]))) "0.0"%string = Some [3; 4; 3] /\
  snd (write_request ex_zarr (FromScalar [3; 4]) [0; 0] [2; 2] ex_files) = Ok tt.
Proof.
  split; [exact ex_zarr_ok|]. split; [split; cbn; lia|]. split; [|vm_compute; auto].
  intros c (x & H1 & H2). destruct x as [|x0 [|x1 [|]]], c as [|c0 [|c1 [|]]]; cbn in H1, H2; try tauto.
  inversion H1 as [|? ? ? ? ? ? A1 A2 H3]; subst. inversion H3 as [|? ? ? ? ? ? B1 B2 _]; subst.
  assert (c0 = 0) as -> by lia. assert (c1 = 0) as -> by lia. split; [|reflexivity].
  intros [|y0 [|y1 [|]]] Hy; cbn in Hy; try tauto. repeat constructor; lia.
Qed.

(** The edge chunks of a zarr array are stored with padding, so that even a write of
    the whole array reads their files first.  If such a file was cut then it may be
    impossible to decompress it, and writing the array again throws. *)
Definition sum_codec : codec := Codec false
  (fun b => if lenN b <=? 100 then Ok (lenN b :: b) else Throw ERuntime)
  (fun f cap => match f with [] => Throw ERuntime | n :: b => if (n =? lenN b) && (n <=? cap) then Ok b else Throw ERuntime end).
Definition ex_sum : dataset :=
  Dataset [3] [2] (KeyConfig true "." 2 "default") (ElemType 2 false) [7; 0] sum_codec Mode_a.
Lemma ex_sum_ok : dataset_ok ex_sum.
Proof.
  split.
  - split; [discriminate|]. cbn. rewrite W64_val. lia.
  - reflexivity.
  - rewrite W64_val. reflexivity.
  - split; [reflexivity|]. repeat constructor.
  - right. intros b _ H0 H. change (lenN b <= 4) in H. cbn [d_codec ex_sum sum_codec cd_enc cd_dec].
    destruct (N.leb_spec (lenN b) 100); [|lia]. eexists. split; [reflexivity|]. cbv beta iota. now rewrite N.eqb_refl, N.leb_refl.
  - reflexivity.
  - right; reflexivity.
  - discriminate.
Qed.
Theorem C88_edge_refuted : exists d src s s', dataset_ok d /\ region_ok d [0] (d_shape d) /\ saves_all s /\
  snd (write_request d src [0] (d_shape d) (disk_files s)) = Ok tt /\
  call disk_policy d (KWriteArray src [0] (d_shape d)) s = (s', Throw ERuntime) /\
  snd (write_request d src [0] (d_shape d) (disk_files s')) = Throw ERuntime /\
  fst (write_request d src [0] (d_shape d) (disk_files s')) (chunk_key (d_key d) [1]) = disk_files s' (chunk_key (d_key d) [1]).
Proof.
  pose (s := Disk (fun _ => None) [Works; Works; Works; Works; Works; Fails 3]).
  pose (s' := fst (call disk_policy ex_sum (KWriteArray (FromScalar [3; 4]) [0] [3]) s)).
  exists ex_sum, (FromScalar [3; 4]), s, s'. split; [exact ex_sum_ok|]. split; [split; cbn; lia|].
  split; [intros n Hn; cbn in Hn; repeat destruct Hn as [Hn|Hn]; try discriminate Hn; exact Hn|]. split; [vm_compute; reflexivity|].
  split; [unfold s'; apply injective_projections; [reflexivity|vm_compute; reflexivity]|].
  split; vm_compute; reflexivity.
Qed.
Print Assumptions C88_edge_refuted.

(** A shard is always read before it is written.  A shard that was cut makes every
    later write of its chunks throw, even of the whole array, and its chunks cannot be
    removed either. *)
Theorem C88_shard_refuted : exists sd src s s', sharded_ok sd /\ region_ok (sd_base sd) [0; 0] (d_shape (sd_base sd)) /\ saves_all s /\
  snd (sh_write_request sd src [0; 0] (d_shape (sd_base sd)) (disk_files s)) = Ok tt /\
  sh_call disk_policy sd (KWriteArray src [0; 0] (d_shape (sd_base sd))) s = (s', Throw ERuntime) /\
  snd (sh_write_request sd src [0; 0] (d_shape (sd_base sd)) (disk_files s')) = Throw ERuntime /\
  snd (sh_write_chunk sd [0; 0] (repeat [3; 4] 4) false (disk_files s')) = Throw ERuntime /\
  snd (sh_remove_chunk sd [0; 0] (disk_files s')) = Throw ERuntime.
Proof.
  pose (s := Disk (fun _ => None) [Works; Works; Works; Fails 3]).
  pose (s' := fst (sh_call disk_policy ex_sharded (KWriteArray (FromScalar [3; 4]) [0; 0] [5; 3]) s)).
  exists ex_sharded, (FromScalar [3; 4]), s, s'. split; [exact ex_sharded_ok|]. split; [split; cbn; lia|].
  split; [intros n Hn; cbn in Hn; repeat destruct Hn as [Hn|Hn]; try discriminate Hn; exact Hn|]. split; [vm_compute; reflexivity|].
  split; [unfold s'; apply injective_projections; [reflexivity|vm_compute; reflexivity]|].
  split; [vm_compute; reflexivity|]. split; vm_compute; reflexivity.
Qed.
Print Assumptions C88_shard_refuted.
