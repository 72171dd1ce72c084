(** Property C98: removing chunks of sharded datasets with several threads. *)
From Verif Require Import M_Base M_Text M_Key M_Blocking M_View M_Bytes M_Format M_Mode M_Shard M_Dataset M_Sharded
  M_Access M_Pool M_Parallel M_ForEach M_Functions M_Lock M_ShardRemove
  S_Array S_Grid S_Bytes S_Text S_Format S_Shard S_Dataset S_Access S_Sharded S_Functions S_ShardRemove
  P_Base P_Dataset P_Sharded P_LockedLoop P_LockedFree P_ShardRemove Properties_Access Properties_Sharded.
Import List ListNotations.
Local Open Scope list_scope.
Local Open Scope N_scope.

(** C98: after any history of chunk operations, for every number of threads and every
    schedule: removeTrivialChunks leaves every chunk with different elements and every
    file that is not a shard as it was; a chunk whose elements are all equal (to the
    value, if one is given) is gone, if the call returns normally.  With one thread it
    does.  Without NaN.  What is missing: with several threads the call can fail, see
    [C98_threads_refuted]; then such a chunk is gone or unchanged. *)
Theorem C98_trivial_partial sd ops st : shard_history sd ops st ->
  (forall c, valid_chunk (d_shape (sd_base sd)) (d_chunks (sd_base sd)) c ->
     comparable (d_type (sd_base sd)) (stored_values (last_result (sd_base sd) ops c None))) ->
  forall hw nThreads est value st1 r, sh_remove_trivial sd hw nThreads est value st st1 r ->
  (r = Ok tt \/ 1 < actual_threads hw nThreads /\ r = Throw ERuntime) /\
  (forall k, (forall c, valid_chunk (d_shape (sd_base sd)) (d_chunks (sd_base sd)) c -> k <> shard_key sd c) -> st1 k = st k) /\
  forall c, valid_chunk (d_shape (sd_base sd)) (d_chunks (sd_base sd)) c ->
    (~ single_value (d_type (sd_base sd)) value (stored_values (last_result (sd_base sd) ops c None)) ->
       shows sd st1 c (last_result (sd_base sd) ops c None)) /\
    (single_value (d_type (sd_base sd)) value (stored_values (last_result (sd_base sd) ops c None)) ->
       shows sd st1 c None \/ (r = Throw ERuntime /\ shows sd st1 c (last_result (sd_base sd) ops c None))).
Proof. exact (@trivial_sharded_history sd ops st). Qed.
Print Assumptions C98_trivial_partial.

(** C98: if only chunks of the fill value are removed, the array reads as before, even if
    the call fails. *)
Theorem C98_array sd ops st0 st : sharded_ok sd -> can_write (d_mode (sd_base sd)) = true -> Forall (array_op_ok (sd_base sd)) ops ->
  (forall c, valid_chunk (d_shape (sd_base sd)) (d_chunks (sd_base sd)) c -> st0 (shard_key sd c) = None) ->
  run_sharded_ops sd ops st0 = (st, Ok tt) -> prod (chunk_counts (d_shape (sd_base sd)) (d_chunks (sd_base sd))) < W64 ->
  (forall c out data, valid_chunk (d_shape (sd_base sd)) (d_chunks (sd_base sd)) c ->
     buffer_of (t_width (d_type (sd_base sd))) (prod (d_chunks (sd_base sd))) out -> sh_chunk_exists sd st c = Ok true ->
     sh_read_chunk sd st c out = Ok (false, data) -> comparable (d_type (sd_base sd)) data) ->
  forall hw nThreads est v st1 r, elem_eq (d_type (sd_base sd)) v (d_fill (sd_base sd)) = true ->
  sh_remove_trivial sd hw nThreads est (Some v) st st1 r ->
  forall ov off out, region_ok (sd_base sd) off (v_shape ov) -> out_view_ok ov (lenN out) ->
    exists out', sh_read_subarray sd st1 ov off out = Ok out' /\
      forall i, in_shape (v_shape ov) i -> exists x,
        getN out' (v_off ov + lin (v_strides ov) i) = Ok x /\
        same_value (sd_base sd) x (apply_ops (sd_base sd) ops (fun _ => d_fill (sd_base sd)) (vadd off i)).
Proof. exact (@trivial_sharded_array sd ops st0 st). Qed.
Print Assumptions C98_array.

(** C98: removeDataset removes everything if it returns normally, and with one thread it
    does.  What is missing: with several threads it can fail; the files that are not
    shards are then as they were, and each chunk is gone or unchanged. *)
Theorem C98_dataset_partial sd ops st : shard_history sd ops st ->
  forall hw nThreads est st1 r, sh_remove_dataset sd hw nThreads est st st1 r ->
  (r = Ok tt /\ forall k, st1 k = None) \/
  (1 < actual_threads hw nThreads /\ r = Throw ERuntime /\
   (forall k, (forall c, valid_chunk (d_shape (sd_base sd)) (d_chunks (sd_base sd)) c -> k <> shard_key sd c) -> st1 k = st k) /\
   forall c, valid_chunk (d_shape (sd_base sd)) (d_chunks (sd_base sd)) c ->
     shows sd st1 c None \/ shows sd st1 c (last_result (sd_base sd) ops c None)).
Proof. exact (@drop_sharded_history sd ops st). Qed.
Print Assumptions C98_dataset_partial.

(** C98: the threads never wait for each other forever: in every state that can be
    reached some thread goes on or all are done, and every execution ends.  Both calls
    return. *)
Theorem C98_returns sd ops st : shard_history sd ops st -> forall hw nThreads est,
  (forall value y, shard_loop sd (actual_threads hw nThreads) est (sh_trivial_visit sd value) st y ->
     Acc (fun a b => shard_step sd (sh_trivial_visit sd value) b a) y /\
     (lfinal y \/ exists y', shard_step sd (sh_trivial_visit sd value) y y')) /\
  (forall y, shard_loop sd (actual_threads hw nThreads) est (sh_drop_visit sd) st y ->
     Acc (fun a b => shard_step sd (sh_drop_visit sd) b a) y /\
     (lfinal y \/ exists y', shard_step sd (sh_drop_visit sd) y y')) /\
  (forall value, exists st1 r, sh_remove_trivial sd hw nThreads est value st st1 r) /\
  exists st1 r, sh_remove_dataset sd hw nThreads est st st1 r.
Proof.
  intros Hh hw nThreads est. destruct (history_start Hh) as (m & C & M1 & M2 & S & _).
  pose proof (sh_ok Hh) as sok. destruct (sh_run Hh) as (wr & _). pose proof (sh_small Hh) as Sm. split; [|split; [|split]].
  - intros value y L. split; [exact (shard_terminates sok _ y)|]. exact (proj2 (@trivial_loop sd sok wr Sm m M1 M2 C st S _ _ value y L)).
  - intros y L. split; [exact (shard_terminates sok _ y)|]. exact (proj2 (@drop_loop sd sok wr Sm m M1 M2 C st S _ _ y L)).
  - intros value. exact (@trivial_returns sd sok wr Sm m M1 M2 C st S hw nThreads est value).
  - exact (@drop_returns sd sok wr Sm m M1 M2 C st S hw nThreads est).
Qed.
Print Assumptions C98_returns.

(** C98: this needs no history: whatever the files contain, damaged shards included, no
    thread waits forever for the mutex.  (Decoding of damaged chunks can be undefined
    behaviour, see C72.) *)
Theorem C98_no_deadlock sd : sharded_ok sd -> forall threads est st visit y,
  (exists value, visit = sh_trivial_visit sd value) \/ visit = sh_drop_visit sd ->
  shard_loop sd threads est visit st y ->
  Acc (fun a b => shard_step sd visit b a) y /\
  (lfinal y \/ (exists y', shard_step sd visit y y') \/ exists t k, nth_error (l_workers y) t = Some (Some (k, LRet UB))).
Proof.
  intros sok threads est st visit y V L. split; [exact (shard_terminates sok _ y)|].
  refine (shard_free _ L). destruct V as [[value ->]| ->]; intros c; [apply balanced_trivial|apply balanced_drop].
Qed.
Print Assumptions C98_no_deadlock.

(** C98: a read-only handle removes nothing. *)
Theorem C98_readonly sd hw nThreads est value st st1 r : can_write (d_mode (sd_base sd)) = false ->
  sh_remove_trivial sd hw nThreads est value st st1 r \/ sh_remove_dataset sd hw nThreads est st st1 r ->
  st1 = st /\ r = Throw EInvalidArgument.
Proof. intros H [R|R]; destruct R; try congruence; auto. Qed.
Print Assumptions C98_readonly.

(** ** A case *)
Definition ex_trivial_shard : list chunk_op :=
  [OpWrite [0; 0] [[5; 0]; [5; 0]; [5; 0]; [5; 0]]; OpWrite [1; 0] [[5; 0]; [2; 0]; [3; 0]; [4; 0]]].
Definition ex_trivial_shard_st : store := fst (run_shard_ops ex_sharded ex_trivial_shard (fun _ => None)).
Lemma ex_trivial_history : shard_history ex_sharded ex_trivial_shard ex_trivial_shard_st.
Proof.
  split; [exact ex_sharded_ok| |rewrite W64_val; reflexivity|split; [reflexivity|]].
  - repeat (apply Forall_cons; [split; [|exact I]|]); [..|constructor]; cbn [op_ok];
      (split; [cbn; lia|split; [reflexivity|repeat constructor]]).
  - exists (fun _ => None). split; [reflexivity|]. unfold ex_trivial_shard_st. vm_compute. reflexivity.
Qed.
Lemma ex_comparable c : comparable (d_type (sd_base ex_sharded)) (stored_values (last_result (sd_base ex_sharded) ex_trivial_shard c None)).
Proof. apply Forall_forall. intros x _. unfold elem_eq. cbn [sd_base ex_sharded d_type t_float]. apply N.eqb_refl. Qed.

(** One thread removes chunk (0, 0), all of whose elements are 5, and not chunk (1, 0) of
    the same shard; removing the fill value 7 changes nothing. *)
Example C98_case : exists st1, sh_remove_trivial ex_sharded 4 1 1 None ex_trivial_shard_st st1 (Ok tt) /\
  sh_chunk_exists ex_sharded ex_trivial_shard_st [0; 0] = Ok true /\ shows ex_sharded st1 [0; 0] None /\
  shows ex_sharded st1 [1; 0] (Some (false, [[5; 0]; [2; 0]; [3; 0]; [4; 0]])).
Proof.
  destruct (C98_returns ex_trivial_history 4 1%Z 1%Z) as (_ & _ & T & _). destruct (T None) as (st1 & r & R). exists st1.
  destruct (@C98_trivial_partial _ _ _ ex_trivial_history (fun c _ => ex_comparable c) _ _ _ _ _ _ R) as (Hr & _ & H).
  destruct Hr as [->|[Q _]]; [|vm_compute in Q; discriminate]. split; [exact R|]. split; [vm_compute; reflexivity|].
  destruct (H [0; 0]) as [_ H0]; [cbn; lia|]. destruct (H [1; 0]) as [H1 _]; [cbn; lia|]. split.
  - destruct H0 as [H0|[Q _]]; [|exact H0|discriminate]. split; [discriminate|]. cbn. split; [|exact I].
    intros x y [<-|[<-|[<-|[<-|[]]]]] [<-|[<-|[<-|[<-|[]]]]]; reflexivity.
  - apply H1. intros (_ & Q & _). cbn in Q. specialize (Q [5; 0] [2; 0] (or_introl eq_refl) (or_intror (or_introl eq_refl))). discriminate.
Qed.
Example C98_array_case : exists st1 r, Forall (array_op_ok (sd_base ex_sharded)) ex_ops /\
  sh_remove_trivial ex_sharded 4 3 1 (Some [7; 0]) (fst (run_sharded_ops ex_sharded ex_ops (fun _ => None))) st1 r /\
  snd (run_sharded_ops ex_sharded ex_ops (fun _ => None)) = Ok tt /\
  elem_eq (d_type (sd_base ex_sharded)) [7; 0] (d_fill (sd_base ex_sharded)) = true.
Proof.
  destruct (so_blob ex_sharded_ok) as (m & M1 & M2).
  assert (Sm : prod (chunk_counts (d_shape (sd_base ex_sharded)) (d_chunks (sd_base ex_sharded))) < W64) by (rewrite W64_val; reflexivity).
  destruct (@run_sharded_ops_spec _ ex_sharded_ok m M1 M2 (own_blob ex_sharded) (@own_blob_ok ex_sharded) own_shard (@own_shard_ok ex_sharded) (fun _ => True) ex_ops (fun _ => I) eq_refl ex_sharded_ops (fun _ => None) _ _
    (@holds_sh_empty _ ex_sharded_ok m M1 M2 (own_blob ex_sharded) (@own_blob_ok ex_sharded) own_shard (@own_shard_ok ex_sharded) (fun _ => True) (fun _ => None) (fun _ _ => eq_refl)) (@P_Access.represents_empty (sd_base ex_sharded)))
    as (st' & C & E & HC & _).
  rewrite E. destruct (@trivial_returns ex_sharded ex_sharded_ok eq_refl Sm m M1 M2 C st' HC 4 3%Z 1%Z (Some [7; 0])) as (st1 & r & R).
  exists st1, r. split; [exact ex_sharded_ops|]. split; [exact R|]. split; reflexivity.
Qed.

(** C98 is refuted with several threads: thread 0 removes chunk (0, 0) and has truncated
    the shard file when thread 1, which does not take the mutex, looks at chunk (1, 0);
    removeTrivialChunks and removeDataset throw although nothing is wrong. *)
Lemma steps_into sd visit bl y0 y : mk_blocking (d_shape (sd_base sd)) (d_chunks (sd_base sd)) = Ok bl ->
  reach (any_lstep (fun i => llift (id_to_coord (b_strides bl) (N.of_nat i)) visit)) y0 y -> reach (shard_step sd visit) y0 y.
Proof. intros E. induction 1 as [|y y' _ IH St]; [apply reach_refl|]. eapply reach_step; [exact IH|]. econstructor; eauto. Qed.
Theorem C98_threads_refuted :
  shard_history ex_sharded ex_trivial_shard ex_trivial_shard_st /\
  (exists st1, sh_remove_trivial ex_sharded 4 2 1 None ex_trivial_shard_st st1 (Throw ERuntime)) /\
  exists st1, sh_remove_dataset ex_sharded 4 2 1 ex_trivial_shard_st st1 (Throw ERuntime).
Proof.
  split; [exact ex_trivial_history|].
  destruct (blocking_ok (so_base ex_sharded_ok)) as (bl & Eb & _).
  assert (Eb' := Eb). vm_compute in Eb'. injection Eb' as Eb'. subst bl.
  split.
  - set (sched := [0; 0; 0; 0; 0; 0; 1; 1; 1; 1; 1; 1; 0; 0; 0; 1; 1; 1; 1; 1; 1; 1; 1; 1]%nat).
    match type of Eb with _ = Ok ?b => set (bl := b) in * end.
    set (vis := fun i => llift (id_to_coord (b_strides bl) (N.of_nat i)) (sh_trivial_visit ex_sharded None)).
    set (y0 := linit ex_trivial_shard_st 2 (loop_tasks 2 1 (N.to_nat (b_number bl)))).
    assert (Q1 : l_queue (lexec vis y0 sched) = []) by (vm_compute; reflexivity).
    assert (Q2 : l_workers (lexec vis y0 sched) = [None; None]) by (vm_compute; reflexivity).
    assert (L : shard_loop ex_sharded (actual_threads 4 2) 1 (sh_trivial_visit ex_sharded None) ex_trivial_shard_st (lexec vis y0 sched)).
    { econstructor; [exact Eb|]. eapply steps_into; [exact Eb|]. apply lexec_reach. apply reach_refl. }
    assert (F : lfinal (lexec vis y0 sched)) by (split; [exact Q1|rewrite Q2; repeat constructor]).
    assert (R : lresult (loop_count ex_sharded (actual_threads 4 2) 1) (lexec vis y0 sched) = Throw ERuntime) by (vm_compute; reflexivity).
    exists (fst (l_mem (lexec vis y0 sched))). rewrite <- R. exact (@sh_trivial_done ex_sharded 4 2%Z 1%Z None _ _ _ eq_refl L F eq_refl).
  - set (sched := [0; 0; 0; 0; 0; 1; 1; 1; 1; 1; 1; 0; 0; 0; 1; 1; 1; 1; 1; 1; 1; 1; 1]%nat).
    match type of Eb with _ = Ok ?b => set (bl := b) in * end.
    set (vis := fun i => llift (id_to_coord (b_strides bl) (N.of_nat i)) (sh_drop_visit ex_sharded)).
    set (y0 := linit ex_trivial_shard_st 2 (loop_tasks 2 1 (N.to_nat (b_number bl)))).
    assert (Q1 : l_queue (lexec vis y0 sched) = []) by (vm_compute; reflexivity).
    assert (Q2 : l_workers (lexec vis y0 sched) = [None; None]) by (vm_compute; reflexivity).
    assert (L : shard_loop ex_sharded (actual_threads 4 2) 1 (sh_drop_visit ex_sharded) ex_trivial_shard_st (lexec vis y0 sched)).
    { econstructor; [exact Eb|]. eapply steps_into; [exact Eb|]. apply lexec_reach. apply reach_refl. }
    assert (F : lfinal (lexec vis y0 sched)) by (split; [exact Q1|rewrite Q2; repeat constructor]).
    assert (R : lresult (loop_count ex_sharded (actual_threads 4 2) 1) (lexec vis y0 sched) = Throw ERuntime) by (vm_compute; reflexivity).
    exists (fst (l_mem (lexec vis y0 sched))). exact (@sh_removal_failed ex_sharded 4 2%Z 1%Z _ _ _ eq_refl L F R).
Qed.
Print Assumptions C98_threads_refuted.

(** A damaged shard: the callback fails. *)
Example C98_no_deadlock_case : exists y st, sharded_ok ex_sharded /\ st (shard_key ex_sharded [0; 0]) = Some [1; 2; 3] /\
  shard_loop ex_sharded 2 1 (sh_drop_visit ex_sharded) st y /\ exists t k, nth_error (l_workers y) t = Some (Some (k, LRet (Throw ERuntime))).
Proof.
  destruct (blocking_ok (so_base ex_sharded_ok)) as (bl & Eb & _).
  assert (Eb' := Eb). vm_compute in Eb'. injection Eb' as Eb'. subst bl.
  match type of Eb with _ = Ok ?b => set (bl := b) in * end.
  set (vis := fun i => llift (id_to_coord (b_strides bl) (N.of_nat i)) (sh_drop_visit ex_sharded)).
  set (st := fun k => if String.eqb k (shard_key ex_sharded [0; 0]) then Some [1; 2; 3] else None).
  set (y0 := linit st 2 (loop_tasks 2 1 (N.to_nat (b_number bl)))).
  exists (lexec vis y0 [0; 0]%nat), st. split; [exact ex_sharded_ok|]. split; [reflexivity|]. split.
  - econstructor; [exact Eb|]. eapply steps_into; [exact Eb|]. apply lexec_reach. apply reach_refl.
  - exists 0%nat, 0%nat. vm_compute. reflexivity.
Qed.
