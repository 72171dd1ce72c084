(** The process dies during removeTrivialChunks or removeDataset,
    include/z5/util/functions.hxx:32-84. *)
From Verif Require Import M_Base M_Text M_Key M_Blocking M_View M_Bytes M_Format
  M_Mode M_Shard M_Dataset M_Sharded M_Access M_Pool M_Parallel M_ForEach M_Functions M_Lock M_ShardRemove.

(** The memory when code is stopped between two accesses.  The accesses of these loops to
    the files of a dataset that is not sharded only look at a file or delete it (fs::remove,
    include/z5/filesystem/handle.hxx:311-317), none can be stopped half way. *)
Inductive halted {M B} : prog M B -> M -> M -> Prop :=
| halted_now p m : halted p m m
| halted_later f m m' : halted (snd (f m)) (fst (f m)) m' -> halted (Act f) m m'.

(** parallel_foreach is stopped and leaves the memory [m'], see [foreach_run]
    (include/z5/util/threadpool.hxx:584-640): all threads stop at the same moment. *)
Inductive foreach_halted {M B} (threads : N) (estimate : Z) (cnt : nat) (f : nat -> nat -> B -> prog M B)
    (junk : B -> Prop) (b0 : B) (m0 : M) : M -> Prop :=
| halted_sequential m' : threads <= 1 -> halted (foreach_sequential f (seq 0 cnt) b0) m0 m' ->
    foreach_halted threads estimate cnt f junk b0 m0 m'
| halted_parallel p c : 1 < threads ->
    reach (foreach_step
             (fun k tid => batch_prog f tid (nth k (batches cnt (chunked_work estimate) (seq 0 cnt)) []))
             junk (List.length (batches cnt (chunked_work estimate) (seq 0 cnt))))
      (pool_init m0 (repeat b0 (N.to_nat threads)), CEnqueue 0) (p, c) ->
    foreach_halted threads estimate cnt f junk b0 m0 (p_mem p).

(** The same for parallel_for_each_chunk, include/z5/util/for_each.hxx:13-21. *)
Inductive each_chunk_halted {M B} (s b : shape) (threads : N) (estimate : Z) (junk : B -> Prop) (b0 : B) (m0 : M)
    (visit : nat -> shape -> B -> prog M B) (m' : M) : Prop :=
| each_chunk_halted_intro bl : mk_blocking s b = Ok bl ->
    foreach_halted threads estimate (N.to_nat (b_number bl))
      (fun tid i st => plift (id_to_coord (b_strides bl) (N.of_nat i)) (fun c => visit tid c st))
      junk b0 m0 m' ->
    each_chunk_halted s b threads estimate junk b0 m0 visit m'.

(** removeTrivialChunks of a dataset that is not sharded is stopped and leaves the files
    [st'], include/z5/util/functions.hxx:32-60. *)
Inductive remove_trivial_halted (d : dataset) (hw : N) (nThreads est : Z) (value : option cell) (st st' : store) : Prop :=
| trivial_halted_refused : can_write (d_mode d) = false -> st' = st ->
    remove_trivial_halted d hw nThreads est value st st'
| trivial_halted_loop : can_write (d_mode d) = true ->
    each_chunk_halted (d_shape d) (d_chunks d) (actual_threads hw nThreads) est (fun _ => True) tt (st, tt)
      (trivial_visit d value) (st', tt) ->
    remove_trivial_halted d hw nThreads est value st st'.

(** Deleting a directory and everything in it (fs::remove_all,
    include/z5/filesystem/handle.hxx:243-252) is stopped: some of the files are gone. *)
Definition partly_deleted (st st' : store) : Prop := forall k, st' k = st k \/ st' k = None.

(** removeDataset is stopped, include/z5/util/functions.hxx:64-84: in the loop over the
    chunks or while the directory is deleted. *)
Inductive remove_dataset_halted (d : dataset) (hw : N) (nThreads est : Z) (st st' : store) : Prop :=
| removal_halted_refused : can_write (d_mode d) = false -> st' = st ->
    remove_dataset_halted d hw nThreads est st st'
| removal_halted_loop : can_write (d_mode d) = true ->
    each_chunk_halted (d_shape d) (d_chunks d) (actual_threads hw nThreads) est (fun _ => True) tt (st, tt)
      (remove_visit d) (st', tt) ->
    remove_dataset_halted d hw nThreads est st st'
| removal_halted_directory st1 : can_write (d_mode d) = true ->
    for_each_chunk (d_shape d) (d_chunks d) (actual_threads hw nThreads) est (fun _ => True) tt (st, tt)
      (remove_visit d) (st1, tt) (Ok tt) ->
    partly_deleted st1 st' ->
    remove_dataset_halted d hw nThreads est st st'.

(** Sharded datasets: all threads stop at the same moment and leave the files [st'].  A
    thread may be inside of an access that appends to a file, which has then got some of
    the bytes (std::ofstream::write and close, include/z5/filesystem/store.hxx:39-49). *)
Definition cut_short (ws : list (option (nat * lcode))) (m : pmem) (st' : store) : Prop := forall key,
  st' key = fst m key \/
  exists k f a b i, In (Some (k, LAct f)) ws /\ fst m key = Some a /\ fst (fst (f m)) key = Some (a ++ b)%list /\
    st' key = Some (a ++ firstn i b)%list.

(** removeTrivialChunks of a sharded dataset is stopped, see [sh_remove_trivial]
    (include/z5/util/functions.hxx:32-60). *)
Inductive sh_remove_trivial_halted (sd : sharded) (hw : N) (nThreads est : Z) (value : option cell) (st st' : store) : Prop :=
| sh_trivial_halted_refused : can_write (d_mode (sd_base sd)) = false -> st' = st ->
    sh_remove_trivial_halted sd hw nThreads est value st st'
| sh_trivial_halted_loop y : can_write (d_mode (sd_base sd)) = true ->
    shard_loop sd (actual_threads hw nThreads) est (sh_trivial_visit sd value) st y ->
    cut_short (l_workers y) (l_mem y) st' ->
    sh_remove_trivial_halted sd hw nThreads est value st st'.

(** removeDataset of a sharded dataset is stopped, see [sh_remove_dataset]
    (include/z5/util/functions.hxx:64-84). *)
Inductive sh_remove_dataset_halted (sd : sharded) (hw : N) (nThreads est : Z) (st st' : store) : Prop :=
| sh_removal_halted_refused : can_write (d_mode (sd_base sd)) = false -> st' = st ->
    sh_remove_dataset_halted sd hw nThreads est st st'
| sh_removal_halted_loop y : can_write (d_mode (sd_base sd)) = true ->
    shard_loop sd (actual_threads hw nThreads) est (sh_drop_visit sd) st y ->
    cut_short (l_workers y) (l_mem y) st' ->
    sh_remove_dataset_halted sd hw nThreads est st st'
| sh_removal_halted_directory y : can_write (d_mode (sd_base sd)) = true ->
    shard_loop sd (actual_threads hw nThreads) est (sh_drop_visit sd) st y -> lfinal y ->
    lresult (loop_count sd (actual_threads hw nThreads) est) y = Ok tt ->
    partly_deleted (fst (l_mem y)) st' ->
    sh_remove_dataset_halted sd hw nThreads est st st'.
