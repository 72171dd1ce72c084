(** Property C121: a write to an object store on several threads is stopped. *)
From Verif Require Import M_Base M_Text M_Key M_Blocking M_View M_Bytes M_N5Header M_Format
  M_Mode M_Shard M_Dataset M_Sharded M_Access M_Pool M_Parallel M_Lock M_Clients M_S3Clients M_RemoveCrash M_S3Parallel
  S_Array S_Grid S_Bytes S_Text S_Format S_Shard S_Dataset S_Sharded S_Access S_File S_Pool S_Parallel
  S_Lock S_Clients S_Readers S_S3Clients S_S3Parallel
  P_Base P_Blocking P_Roi P_View P_Bytes P_Key P_Format P_Shard P_Dataset P_Access P_Read P_History P_Sharded P_File P_Pool
  P_Foreach P_Parallel P_ParWrite P_ParSharded P_ParHistory P_S3Parallel P_S3Parallel2 P_S3Parallel3 P_S3Parallel4
  Properties_Access Properties_Sharded Properties_File Properties_Parallel Properties_S3Parallel Properties_RemoveCrash.
Import List ListNotations.
Local Open Scope list_scope.
Local Open Scope N_scope.

(** C121: an array is written by any sequence of operations, and then a write with any
    number of threads is stopped at any moment.  There are chunks, among those that the
    write covers, that have the new elements, and all others have the old ones.  Later
    operations succeed, and reads return the elements of that array with the later
    operations applied. *)
Theorem C121_stopped d : dataset_ok d -> can_write (d_mode d) = true ->
  forall threads est before src off n st st1 rs st2,
  Forall (fun o => array_op_ok d (snd o)) before -> array_op_ok d (AWrite off n src) ->
  (forall c, valid_chunk (d_shape d) (d_chunks d) c -> st (chunk_key (d_key d) c) = None) ->
  history (s3_par_op d) before st st1 rs -> s3_write_halted d threads est src off n st1 st2 ->
  exists fresh : shape -> bool, (forall c, fresh c = true -> overlaps (d_shape d) (d_chunks d) off n c) /\
  forall after st3 rs', Forall (fun o => array_op_ok d (snd o)) after -> history (s3_par_op d) after st2 st3 rs' ->
    Forall (eq (Ok tt)) rs' /\
    forall threads' est' ov off' l o o' r, region_ok d off' (v_shape ov) -> out_view_ok ov (lenN l) -> lists o l ->
      read_run d threads' est' st3 ov off' (lenN l) o o' r ->
      r = Ok tt /\
      reads_as d (apply_ops d (map snd after)
        (partly (fun x => fresh (chunk_of (d_chunks d) x)) (apply_ops d (map snd before ++ [AWrite off n src]) (fun _ => d_fill d))
          (apply_ops d (map snd before) (fun _ => d_fill d)))) ov off' o o'.
Proof. intros H Hw threads est before src off n st st1 rs st2. exact (@s3_halted_array d H Hw threads est before src off n st st1 rs st2). Qed.
Print Assumptions C121_stopped.

(** C121, sharded datasets: the same for shards instead of chunks. *)
Theorem C121_sharded_stopped sd : sharded_ok sd -> can_write (d_mode (sd_base sd)) = true ->
  forall threads est before src off n st st1 rs st2,
  Forall (fun o => array_op_ok (sd_base sd) (snd o)) before -> array_op_ok (sd_base sd) (AWrite off n src) ->
  (forall c, valid_chunk (d_shape (sd_base sd)) (d_chunks (sd_base sd)) c -> st (shard_key sd c) = None) ->
  history (s3_sh_par_op sd) before st st1 rs -> s3_sh_write_halted sd threads est src off n st1 st2 ->
  exists fresh : shape -> bool, (forall k, fresh k = true -> exists c, overlaps (d_shape (sd_base sd)) (d_chunks (sd_base sd)) off n c /\ shard_of (sd_cps sd) c = k) /\
  forall after st3 rs', Forall (fun o => array_op_ok (sd_base sd) (snd o)) after -> history (s3_sh_par_op sd) after st2 st3 rs' ->
    Forall (eq (Ok tt)) rs' /\
    forall threads' est' ov off' l o o' r, region_ok (sd_base sd) off' (v_shape ov) -> out_view_ok ov (lenN l) -> lists o l ->
      sh_read_run sd threads' est' st3 ov off' (lenN l) o o' r ->
      r = Ok tt /\
      reads_as (sd_base sd) (apply_ops (sd_base sd) (map snd after)
        (partly (fun x => fresh (shard_of (sd_cps sd) (chunk_of (d_chunks (sd_base sd)) x))) (apply_ops (sd_base sd) (map snd before ++ [AWrite off n src]) (fun _ => d_fill (sd_base sd)))
          (apply_ops (sd_base sd) (map snd before) (fun _ => d_fill (sd_base sd))))) ov off' o o'.
Proof. intros H Hw threads est before src off n st st1 rs st2. exact (@s3_halted_sharded sd H Hw threads est before src off n st st1 rs st2). Qed.
Print Assumptions C121_sharded_stopped.

(** C121: once the write has been repeated, with any number of threads, nothing is left of
    the stopped one. *)
Theorem C121_repeated d : dataset_ok d -> can_write (d_mode d) = true ->
  forall threads est before src off n st st1 rs st2,
  Forall (fun o => array_op_ok d (snd o)) before -> array_op_ok d (AWrite off n src) ->
  (forall c, valid_chunk (d_shape d) (d_chunks d) c -> st (chunk_key (d_key d) c) = None) ->
  history (s3_par_op d) before st st1 rs -> s3_write_halted d threads est src off n st1 st2 ->
  forall threads2 est2 after st3 rs', Forall (fun o => array_op_ok d (snd o)) after ->
    history (s3_par_op d) ((threads2, est2, AWrite off n src) :: after) st2 st3 rs' ->
    Forall (eq (Ok tt)) rs' /\
    forall threads' est' ov off' l o o' r, region_ok d off' (v_shape ov) -> out_view_ok ov (lenN l) -> lists o l ->
      read_run d threads' est' st3 ov off' (lenN l) o o' r ->
      r = Ok tt /\ reads_as d (apply_ops d (map snd before ++ AWrite off n src :: map snd after) (fun _ => d_fill d)) ov off' o o'.
Proof. intros H Hw threads est before src off n st st1 rs st2. exact (@s3_halted_repeated d H Hw threads est before src off n st st1 rs st2). Qed.
Print Assumptions C121_repeated.
Theorem C121_sharded_repeated sd : sharded_ok sd -> can_write (d_mode (sd_base sd)) = true ->
  forall threads est before src off n st st1 rs st2,
  Forall (fun o => array_op_ok (sd_base sd) (snd o)) before -> array_op_ok (sd_base sd) (AWrite off n src) ->
  (forall c, valid_chunk (d_shape (sd_base sd)) (d_chunks (sd_base sd)) c -> st (shard_key sd c) = None) ->
  history (s3_sh_par_op sd) before st st1 rs -> s3_sh_write_halted sd threads est src off n st1 st2 ->
  forall threads2 est2 after st3 rs', Forall (fun o => array_op_ok (sd_base sd) (snd o)) after ->
    history (s3_sh_par_op sd) ((threads2, est2, AWrite off n src) :: after) st2 st3 rs' ->
    Forall (eq (Ok tt)) rs' /\
    forall threads' est' ov off' l o o' r, region_ok (sd_base sd) off' (v_shape ov) -> out_view_ok ov (lenN l) -> lists o l ->
      sh_read_run sd threads' est' st3 ov off' (lenN l) o o' r ->
      r = Ok tt /\ reads_as (sd_base sd) (apply_ops (sd_base sd) (map snd before ++ AWrite off n src :: map snd after) (fun _ => d_fill (sd_base sd))) ov off' o o'.
Proof. intros H Hw threads est before src off n st st1 rs st2. exact (@s3_halted_sharded_repeated sd H Hw threads est before src off n st st1 rs st2). Qed.
Print Assumptions C121_sharded_repeated.

(** Later operations can be run. *)
Theorem C121_goes_on d : dataset_ok d -> can_write (d_mode d) = true ->
  forall threads est before src off n st st1 rs st2,
  Forall (fun o => array_op_ok d (snd o)) before -> array_op_ok d (AWrite off n src) ->
  (forall c, valid_chunk (d_shape d) (d_chunks d) c -> st (chunk_key (d_key d) c) = None) ->
  history (s3_par_op d) before st st1 rs -> s3_write_halted d threads est src off n st1 st2 ->
  forall after, Forall (fun o => array_op_ok d (snd o)) after -> exists st3 rs', history (s3_par_op d) after st2 st3 rs'.
Proof. intros H Hw threads est before src off n st st1 rs st2. exact (@s3_halted_goes_on d H Hw threads est before src off n st st1 rs st2). Qed.
Print Assumptions C121_goes_on.
Theorem C121_sharded_goes_on sd : sharded_ok sd -> can_write (d_mode (sd_base sd)) = true ->
  forall threads est before src off n st st1 rs st2,
  Forall (fun o => array_op_ok (sd_base sd) (snd o)) before -> array_op_ok (sd_base sd) (AWrite off n src) ->
  (forall c, valid_chunk (d_shape (sd_base sd)) (d_chunks (sd_base sd)) c -> st (shard_key sd c) = None) ->
  history (s3_sh_par_op sd) before st st1 rs -> s3_sh_write_halted sd threads est src off n st1 st2 ->
  forall after, Forall (fun o => array_op_ok (sd_base sd) (snd o)) after -> exists st3 rs', history (s3_sh_par_op sd) after st2 st3 rs'.
Proof. intros H Hw threads est before src off n st st1 rs st2. exact (@s3_halted_sharded_goes_on sd H Hw threads est before src off n st st1 rs st2). Qed.
Print Assumptions C121_sharded_goes_on.

(** ** Cases *)

Definition ex_halted_src : source := FromScalar [5; 5].
Definition ex_halted (n : nat) : pmem :=
  after_accesses n (foreach_sequential
    (fun _ i => s3_write_unit_code ex_zarr ex_halted_src [0; 0] [5; 3] (nth i [[0; 0]; [0; 1]; [1; 0]; [1; 1]; [2; 0]; [2; 1]] []))
    (seq 0 6) (repeat [7; 0] 4)) ((fun _ => None), fun _ => []).

Lemma ex_halted_ok n : s3_write_halted ex_zarr 1 1 ex_halted_src [0; 0] [5; 3] (fun _ => None) (fst (ex_halted n)).
Proof.
  econstructor; [vm_compute; reflexivity|]. apply halted_sequential; [discriminate|]. apply after_halted.
Qed.
Lemma ex_halted_op : array_op_ok ex_zarr (AWrite [0; 0] [5; 3] ex_halted_src).
Proof. split; [split; cbn; lia|]. split; [reflexivity|]. repeat constructor. Qed.

(** A write of a whole array is stopped after two of six chunks. *)
Example C121_case : exists st2,
  dataset_ok ex_zarr /\ array_op_ok ex_zarr (AWrite [0; 0] [5; 3] ex_halted_src) /\
  history (s3_par_op ex_zarr) [] (fun _ => None) (fun _ => None) [] /\
  s3_write_halted ex_zarr 1 1 ex_halted_src [0; 0] [5; 3] (fun _ => None) st2 /\
  map st2 ["0.0"; "0.1"; "1.0"]%string = [Some [5; 5; 5; 5; 5; 5; 5; 5]; Some [5; 5; 7; 0; 5; 5; 7; 0]; None].
Proof.
  exists (fst (ex_halted 6)). split; [exact ex_zarr_ok|]. split; [exact ex_halted_op|]. split; [constructor|].
  split; [apply ex_halted_ok|]. vm_compute. reflexivity.
Qed.

(** The second operation of [ex_par_ops], on four threads, is stopped at its end. *)
Example C121_sharded_case : exists st1 rs st2,
  history (s3_sh_par_op ex_sharded) [(1, 1%Z, nth 0 ex_ops (ARemove []))] (fun _ => None) st1 rs /\
  s3_sh_write_halted ex_sharded 4 1 (FromScalar [9; 1]) [4; 0] [1; 2] st1 st2.
Proof.
  destruct C120_case as (_ & _ & st' & rs & H & _). unfold ex_par_ops in H. cbn [combine ex_ops] in H.
  inversion H as [|t e o ops s0 s1 s2 r rs1 H1 H2]; subst. inversion H2 as [|t e o ops s0 s3 s4 r2 rs2 H3 H4]; subst.
  exists s1, [r]. cbn [s3_sh_par_op] in H3.
  inversion H3 as [gs m1 r' E F|e E]; subst; [|vm_compute in E; discriminate].
  exists (fst m1). split; [econstructor; [exact H1|constructor]|]. econstructor; [exact E|].
  inversion F as [m2 o T E2|p exc T E2]; subst; [lia|]. eapply halted_parallel; eauto.
Qed.

(** The write as a whole does not take effect at one moment: a write that is stopped can
    leave the objects neither as they were nor as the write would have left them. *)
Theorem C121_whole_refuted : exists d threads est src off n st st2,
  dataset_ok d /\ can_write (d_mode d) = true /\ array_op_ok d (AWrite off n src) /\
  (forall c, valid_chunk (d_shape d) (d_chunks d) c -> st (chunk_key (d_key d) c) = None) /\
  s3_write_halted d threads est src off n st st2 /\
  (exists k, st2 k <> st k) /\ (exists k, st2 k <> fst (write_request d src off n st) k).
Proof.
  exists ex_zarr, 1, 1%Z, ex_halted_src, [0; 0], [5; 3], (fun _ => None), (fst (ex_halted 6)).
  split; [exact ex_zarr_ok|]. split; [reflexivity|]. split; [exact ex_halted_op|]. split; [reflexivity|]. split; [apply ex_halted_ok|].
  split; [exists "0.0"%string|exists "1.0"%string]; vm_compute; discriminate.
Qed.
Print Assumptions C121_whole_refuted.
