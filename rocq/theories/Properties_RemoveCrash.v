(** Property C109: the process dies while chunks or the dataset are removed. *)
From Coq Require Import String.
From Verif Require Import M_Base M_Text M_Key M_Blocking M_View M_Bytes M_Format M_Mode M_Shard M_Dataset M_Sharded
  M_Access M_Pool M_Parallel M_ForEach M_Functions M_Lock M_ShardRemove M_RemoveCrash
  S_Array S_Grid S_Bytes S_Text S_Format S_Shard S_Dataset S_Access S_Sharded S_Functions S_ShardRemove
  P_Base P_Dataset P_Sharded P_LockedLoop P_LockedFree P_ShardRemove P_RemoveCrash
  Properties_Access Properties_Sharded Properties_Functions Properties_ShardRemove.
Import List ListNotations.
Local Open Scope list_scope.
Local Open Scope N_scope.

(** C109: if the process dies at any moment of removeTrivialChunks, with any number of
    threads, every chunk of a dataset that is not sharded is as before or, if all of its
    elements are equal (to the value), gone; no other file is changed.  Calling
    removeTrivialChunks again completes the removal. *)
Theorem C109_trivial d ops st0 st : dataset_ok d -> can_write (d_mode d) = true -> Forall (op_ok d) ops ->
  (forall c, valid_chunk (d_shape d) (d_chunks d) c -> st0 (chunk_key (d_key d) c) = None) ->
  run_ops d ops st0 = (st, Ok tt) -> prod (chunk_counts (d_shape d) (d_chunks d)) < W64 ->
  (forall c, valid_chunk (d_shape d) (d_chunks d) c -> comparable (d_type d) (stored_values (last_result d ops c None))) ->
  forall hw nThreads est value st', remove_trivial_halted d hw nThreads est value st st' ->
  (forall k, (forall c, valid_chunk (d_shape d) (d_chunks d) c -> k <> chunk_key (d_key d) c) -> st' k = st k) /\
  (forall c, valid_chunk (d_shape d) (d_chunks d) c -> st' (chunk_key (d_key d) c) = st (chunk_key (d_key d) c) \/
    (single_value (d_type d) value (stored_values (last_result d ops c None)) /\ st' (chunk_key (d_key d) c) = None)) /\
  forall hw' nThreads' est' st1 r, remove_trivial d hw' nThreads' est' value st' st1 r ->
    r = Ok tt /\ forall c, valid_chunk (d_shape d) (d_chunks d) c ->
      (single_value (d_type d) value (stored_values (last_result d ops c None)) -> st1 (chunk_key (d_key d) c) = None) /\
      (~ single_value (d_type d) value (stored_values (last_result d ops c None)) ->
         st1 (chunk_key (d_key d) c) = st (chunk_key (d_key d) c)).
Proof. exact (@trivial_halted_history d ops st0 st). Qed.
Print Assumptions C109_trivial.

(** C109: if the value is the fill value, the array reads as before. *)
Theorem C109_array d ops st0 st : dataset_ok d -> can_write (d_mode d) = true -> Forall (array_op_ok d) ops ->
  (forall c, valid_chunk (d_shape d) (d_chunks d) c -> st0 (chunk_key (d_key d) c) = None) ->
  run_array_ops d ops st0 = (st, Ok tt) -> prod (chunk_counts (d_shape d) (d_chunks d)) < W64 ->
  (forall c out vl data, valid_chunk (d_shape d) (d_chunks d) c -> buffer_of (t_width (d_type d)) (prod (stored_shape d c)) out ->
     read_chunk d st c out = Ok (vl, data) -> comparable (d_type d) data) ->
  forall hw nThreads est v st', elem_eq (d_type d) v (d_fill d) = true -> remove_trivial_halted d hw nThreads est (Some v) st st' ->
  forall ov off out, region_ok d off (v_shape ov) -> out_view_ok ov (lenN out) ->
    exists out', read_subarray d st' ov off out = Ok out' /\
      forall i, in_shape (v_shape ov) i -> exists x,
        getN out' (v_off ov + lin (v_strides ov) i) = Ok x /\
        same_value d x (apply_ops d ops (fun _ => d_fill d) (vadd off i)).
Proof. exact (@trivial_halted_array d ops st0 st). Qed.
Print Assumptions C109_array.

(** C109: if the process dies during removeDataset, every file is as before or gone, and
    files that are not chunks, such as the metadata, are as before as long as one of the
    chunks is left. *)
Theorem C109_dataset d hw nThreads est st st' : dataset_ok d -> prod (chunk_counts (d_shape d) (d_chunks d)) < W64 ->
  remove_dataset_halted d hw nThreads est st st' ->
  (forall k, st' k = st k \/ st' k = None) /\
  ((forall k, (forall c, valid_chunk (d_shape d) (d_chunks d) c -> k <> chunk_key (d_key d) c) -> st' k = st k) \/
   (forall c, valid_chunk (d_shape d) (d_chunks d) c -> st' (chunk_key (d_key d) c) = None)).
Proof. exact (@removal_halted_general d hw nThreads est st st'). Qed.
Print Assumptions C109_dataset.

(** C109: sharded datasets.  At most one shard, one with a chunk that is to be removed,
    may be damaged; chunks in other shards are as before or, if all of their elements are
    equal (to the value), gone. *)
Theorem C109_sharded sd ops st : shard_history sd ops st ->
  (forall c, valid_chunk (d_shape (sd_base sd)) (d_chunks (sd_base sd)) c ->
     comparable (d_type (sd_base sd)) (stored_values (last_result (sd_base sd) ops c None))) ->
  forall hw nThreads est value st', sh_remove_trivial_halted sd hw nThreads est value st st' ->
  (forall k, (forall c, valid_chunk (d_shape (sd_base sd)) (d_chunks (sd_base sd)) c -> k <> shard_key sd c) -> st' k = st k) /\
  exists cut, (List.length cut <= 1)%nat /\
    (forall k, In k cut -> exists x, valid_chunk (d_shape (sd_base sd)) (d_chunks (sd_base sd)) x /\
       single_value (d_type (sd_base sd)) value (stored_values (last_result (sd_base sd) ops x None)) /\ shard_of (sd_cps sd) x = k) /\
    forall c, valid_chunk (d_shape (sd_base sd)) (d_chunks (sd_base sd)) c -> ~ In (shard_of (sd_cps sd) c) cut ->
      shows sd st' c (last_result (sd_base sd) ops c None) \/
      single_value (d_type (sd_base sd)) value (stored_values (last_result (sd_base sd) ops c None)) /\ shows sd st' c None.
Proof. exact (@sharded_trivial_halted sd ops st). Qed.
Print Assumptions C109_sharded.

(** C109: if the value is the fill value, all regions that do not meet that shard read as
    before. *)
Theorem C109_sharded_array sd ops st0 st : sharded_ok sd -> can_write (d_mode (sd_base sd)) = true -> Forall (array_op_ok (sd_base sd)) ops ->
  (forall c, valid_chunk (d_shape (sd_base sd)) (d_chunks (sd_base sd)) c -> st0 (shard_key sd c) = None) ->
  run_sharded_ops sd ops st0 = (st, Ok tt) -> prod (chunk_counts (d_shape (sd_base sd)) (d_chunks (sd_base sd))) < W64 ->
  (forall c out data, valid_chunk (d_shape (sd_base sd)) (d_chunks (sd_base sd)) c ->
     buffer_of (t_width (d_type (sd_base sd))) (prod (d_chunks (sd_base sd))) out -> sh_chunk_exists sd st c = Ok true ->
     sh_read_chunk sd st c out = Ok (false, data) -> comparable (d_type (sd_base sd)) data) ->
  forall hw nThreads est v st', elem_eq (d_type (sd_base sd)) v (d_fill (sd_base sd)) = true ->
  sh_remove_trivial_halted sd hw nThreads est (Some v) st st' ->
  exists cut, (List.length cut <= 1)%nat /\
  forall ov off out, region_ok (sd_base sd) off (v_shape ov) -> out_view_ok ov (lenN out) ->
    (forall c, overlaps (d_shape (sd_base sd)) (d_chunks (sd_base sd)) off (v_shape ov) c -> ~ In (shard_of (sd_cps sd) c) cut) ->
    exists out', sh_read_subarray sd st' ov off out = Ok out' /\
      forall i, in_shape (v_shape ov) i -> exists x,
        getN out' (v_off ov + lin (v_strides ov) i) = Ok x /\
        same_value (sd_base sd) x (apply_ops (sd_base sd) ops (fun _ => d_fill (sd_base sd)) (vadd off i)).
Proof. exact (@sharded_halted_array sd ops st0 st). Qed.
Print Assumptions C109_sharded_array.

(** C109: removeDataset of a sharded dataset: the same, or all chunks are gone and files
    that are not shards are as before or gone. *)
Theorem C109_sharded_dataset sd ops st : shard_history sd ops st ->
  forall hw nThreads est st', sh_remove_dataset_halted sd hw nThreads est st st' ->
  ((forall k, (forall c, valid_chunk (d_shape (sd_base sd)) (d_chunks (sd_base sd)) c -> k <> shard_key sd c) -> st' k = st k) /\
   exists cut, (List.length cut <= 1)%nat /\
     forall c, valid_chunk (d_shape (sd_base sd)) (d_chunks (sd_base sd)) c -> ~ In (shard_of (sd_cps sd) c) cut ->
       shows sd st' c (last_result (sd_base sd) ops c None) \/ shows sd st' c None) \/
  ((forall c, valid_chunk (d_shape (sd_base sd)) (d_chunks (sd_base sd)) c -> shows sd st' c None) /\
   forall k, (forall c, valid_chunk (d_shape (sd_base sd)) (d_chunks (sd_base sd)) c -> k <> shard_key sd c) -> st' k = st k \/ st' k = None).
Proof. exact (@sharded_drop_halted sd ops st). Qed.
Print Assumptions C109_sharded_dataset.

(** ** Cases *)

(** The code, stopped after [n] accesses. *)
Fixpoint after_accesses {M B} (n : nat) (p : prog M B) (m : M) : M :=
  match n, p with
  | S n', Act f => after_accesses n' (snd (f m)) (fst (f m))
  | _, _ => m
  end.
Lemma after_halted M B n : forall (p : prog M B) m, halted p m (after_accesses n p m).
Proof. induction n as [|n IH]; intros [o|f] m; cbn; try constructor. apply IH. Qed.

(** One thread has removed the chunk [1; 1] of ex_edge when the process dies; the chunk
    [1; 0] is not to be removed. *)
Example C109_case : exists st', remove_trivial_halted ex_edge 4 1 1 (Some [1]) ex_trivial_st st' /\
  Forall (op_ok ex_edge) ex_trivial_ops /\ run_ops ex_edge ex_trivial_ops (fun _ => None) = (ex_trivial_st, Ok tt) /\
  ex_trivial_st "0"%string = Some [1; 1] /\ st' "0"%string = None /\ st' "1"%string = Some [1; 0].
Proof.
  destruct (blocking_ok ex_edge_ok) as (bl & Eb & _). assert (Eb' := Eb). vm_compute in Eb'. injection Eb' as Eb'. subst bl.
  match type of Eb with _ = Ok ?b => set (bl := b) in * end.
  set (p := foreach_sequential (fun tid i st => plift (id_to_coord (b_strides bl) (N.of_nat i)) (fun c => trivial_visit ex_edge (Some [1]) tid c st))
     (seq 0 (N.to_nat (b_number bl))) tt).
  set (m' := after_accesses 4 p (ex_trivial_st, tt)).
  exists (fst m'). split; [|split; [exact ex_trivial_ok|split; [exact ex_trivial_run|vm_compute; auto]]].
  apply trivial_halted_loop; [reflexivity|]. econstructor; [exact Eb|]. apply halted_sequential; [vm_compute; discriminate|].
  fold p. replace (fst m', tt) with m' by (destruct m' as [? []]; reflexivity). apply after_halted.
Qed.
Example C109_array_case : exists st', remove_trivial_halted ex_edge 4 3 1 (Some [0]) ex_edge_st st' /\
  array_op_ok ex_edge ex_edge_op /\ run_array_ops ex_edge [ex_edge_op] (fun _ => None) = (ex_edge_st, Ok tt) /\
  elem_eq (d_type ex_edge) [0] (d_fill ex_edge) = true /\
  (forall c out vl data, valid_chunk (d_shape ex_edge) (d_chunks ex_edge) c ->
     buffer_of (t_width (d_type ex_edge)) (prod (stored_shape ex_edge c)) out ->
     read_chunk ex_edge ex_edge_st c out = Ok (vl, data) -> comparable (d_type ex_edge) data).
Proof.
  destruct C54_array_case as (st1 & R & H1 & H2 & H3). exists st1. split; [|auto].
  inversion R as [Q|r wr L]; try discriminate. apply trivial_halted_loop; [reflexivity|]. destruct L as [bl Eb L]. econstructor; [exact Eb|].
  inversion L as [m1 o T E|p exc T E]; subst; [vm_compute in T; congruence|].
  eapply halted_parallel; eauto.
Qed.
(** removeDataset has removed the first chunk. *)
Example C109_dataset_case : exists st', remove_dataset_halted ex_edge 4 1 1 ex_trivial_st st' /\
  dataset_ok ex_edge /\ st' "0"%string = None /\ st' "1"%string = Some [1; 0].
Proof.
  destruct (blocking_ok ex_edge_ok) as (bl & Eb & _). assert (Eb' := Eb). vm_compute in Eb'. injection Eb' as Eb'. subst bl.
  match type of Eb with _ = Ok ?b => set (bl := b) in * end.
  set (p := foreach_sequential (fun tid i st => plift (id_to_coord (b_strides bl) (N.of_nat i)) (fun c => remove_visit ex_edge tid c st))
     (seq 0 (N.to_nat (b_number bl))) tt).
  set (m' := after_accesses 2 p (ex_trivial_st, tt)).
  exists (fst m'). split; [|split; [exact ex_edge_ok|vm_compute; auto]].
  apply removal_halted_loop; [reflexivity|]. econstructor; [exact Eb|]. apply halted_sequential; [vm_compute; discriminate|].
  fold p. replace (fst m', tt) with m' by (destruct m' as [? []]; reflexivity). apply after_halted.
Qed.

(** C109 is refuted for chunks in the shard that is being written: one thread removes
    chunk (0, 0), whose elements are all 5, and the process dies when the shard file has
    been truncated.  Chunk (1, 0) of the same shard, which was not to be removed, is lost. *)
Theorem C109_shard_refuted : exists st', sh_remove_trivial_halted ex_sharded 4 1 1 None ex_trivial_shard_st st' /\
  shard_history ex_sharded ex_trivial_shard ex_trivial_shard_st /\
  ~ single_value (d_type (sd_base ex_sharded)) None (stored_values (last_result (sd_base ex_sharded) ex_trivial_shard [1; 0] None)) /\
  sh_chunk_exists ex_sharded ex_trivial_shard_st [1; 0] = Ok true /\ sh_chunk_exists ex_sharded st' [1; 0] = Throw ERuntime /\
  forall out, sh_read_chunk ex_sharded st' [1; 0] out = Throw ERuntime.
Proof.
  destruct (blocking_ok (so_base ex_sharded_ok)) as (bl & Eb & _).
  assert (Eb' := Eb). vm_compute in Eb'. injection Eb' as Eb'. subst bl.
  match type of Eb with _ = Ok ?b => set (bl := b) in * end.
  set (vis := fun i => llift (id_to_coord (b_strides bl) (N.of_nat i)) (sh_trivial_visit ex_sharded None)).
  set (y0 := linit ex_trivial_shard_st 1 (loop_tasks 1 1 (N.to_nat (b_number bl)))).
  set (y := lexec vis y0 [0; 0; 0; 0; 0; 0]%nat).
  assert (L : shard_loop ex_sharded (actual_threads 4 1) 1 (sh_trivial_visit ex_sharded None) ex_trivial_shard_st y).
  { econstructor; [exact Eb|]. eapply steps_into; [exact Eb|]. apply lexec_reach. apply reach_refl. }
  exists (fst (l_mem y)). split; [eapply sh_trivial_halted_loop; [reflexivity|exact L|]; intros key; now left|].
  split; [exact ex_trivial_history|]. split.
  { intros (_ & Q & _). cbn in Q. specialize (Q [5; 0] [2; 0] (or_introl eq_refl) (or_intror (or_introl eq_refl))). discriminate. }
  split; [vm_compute; reflexivity|]. split; [vm_compute; reflexivity|]. intros out. vm_compute. reflexivity.
Qed.
Print Assumptions C109_shard_refuted.
(** The same state is a case of C109_sharded and C109_sharded_array has one by
    C98_array_case. *)
Example C109_sharded_case : exists st', sh_remove_trivial_halted ex_sharded 4 1 1 None ex_trivial_shard_st st' /\
  shard_history ex_sharded ex_trivial_shard ex_trivial_shard_st /\
  (forall c, valid_chunk (d_shape (sd_base ex_sharded)) (d_chunks (sd_base ex_sharded)) c ->
     comparable (d_type (sd_base ex_sharded)) (stored_values (last_result (sd_base ex_sharded) ex_trivial_shard c None))).
Proof. destruct C109_shard_refuted as (st' & H1 & H2 & _). exists st'. split; [exact H1|]. split; [exact H2|]. intros c _. apply ex_comparable. Qed.
(** The end of a call is one of the moments. *)
Lemma sh_end_halted sd hw nThreads est value st st1 r : sh_remove_trivial sd hw nThreads est value st st1 r ->
  sh_remove_trivial_halted sd hw nThreads est value st st1.
Proof.
  intros [wr E|y wr L F E]; [now apply sh_trivial_halted_refused|]. eapply sh_trivial_halted_loop; [exact wr|exact L|].
  intros key. left. now rewrite E.
Qed.
Example C109_sharded_array_case : exists st', Forall (array_op_ok (sd_base ex_sharded)) ex_ops /\
  sh_remove_trivial_halted ex_sharded 4 3 1 (Some [7; 0]) (fst (run_sharded_ops ex_sharded ex_ops (fun _ => None))) st' /\
  snd (run_sharded_ops ex_sharded ex_ops (fun _ => None)) = Ok tt /\
  elem_eq (d_type (sd_base ex_sharded)) [7; 0] (d_fill (sd_base ex_sharded)) = true.
Proof.
  destruct C98_array_case as (st1 & r & H1 & R & H2 & H3). exists st1. split; [exact H1|]. split; [|auto].
  exact (sh_end_halted R).
Qed.
(** removeDataset of the sharded dataset has truncated the shard. *)
Example C109_sharded_dataset_case : exists st', sh_remove_dataset_halted ex_sharded 4 1 1 ex_trivial_shard_st st' /\
  shard_history ex_sharded ex_trivial_shard ex_trivial_shard_st /\
  st' (shard_key ex_sharded [0; 0]) = Some [].
Proof.
  destruct (blocking_ok (so_base ex_sharded_ok)) as (bl & Eb & _).
  assert (Eb' := Eb). vm_compute in Eb'. injection Eb' as Eb'. subst bl.
  match type of Eb with _ = Ok ?b => set (bl := b) in * end.
  set (vis := fun i => llift (id_to_coord (b_strides bl) (N.of_nat i)) (sh_drop_visit ex_sharded)).
  set (y0 := linit ex_trivial_shard_st 1 (loop_tasks 1 1 (N.to_nat (b_number bl)))).
  set (y := lexec vis y0 [0; 0; 0; 0; 0]%nat).
  assert (L : shard_loop ex_sharded (actual_threads 4 1) 1 (sh_drop_visit ex_sharded) ex_trivial_shard_st y).
  { econstructor; [exact Eb|]. eapply steps_into; [exact Eb|]. apply lexec_reach. apply reach_refl. }
  exists (fst (l_mem y)). split; [eapply sh_removal_halted_loop; [reflexivity|exact L|]; intros key; now left|].
  split; [exact ex_trivial_history|]. vm_compute. reflexivity.
Qed.
