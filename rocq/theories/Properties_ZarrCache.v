(** Property C123: the format that a dataset handle remembers. *)
From Coq Require Import ZArith.
From Verif Require Import M_Base M_Text M_Pool M_Store M_S3 M_Fs M_ZarrCache S_Text S_S3 S_ZarrCache P_Base P_ZarrCache.
Import List ListNotations.
Local Open Scope list_scope.
Local Open Scope nat_scope.

(** C123: once the format of a handle has been set, every thread gets this format from the
    handle, its copies, and the copies of these, whatever else threads do, whatever happens
    in the store, and whether or not its requests fail. *)
Theorem C123_set M (checks : list (check M)) (env : M -> M -> Prop) (m : M) caches requests h v w :
  nth_error caches h = Some (flag v) ->
  (forall r x b, In r requests -> In (QSet x b) r -> x = h \/ length caches <= x -> b = v) ->
  reach (world_step checks env) (world_start m caches requests) w ->
  forall t x o, copy_of (w_log w) h x -> In (LAnswer t x o) (w_log w) -> o = Ok v.
Proof. exact (@seeded_reach M checks env m caches requests h v w). Qed.
Print Assumptions C123_set.

(** C123: no request is sent for handles with a format: the store is changed by others only. *)
Theorem C123_quiet M (checks : list (check M)) (env : M -> M -> Prop) (m : M) caches requests w :
  Forall (fun c => exists b, c = flag b) caches ->
  reach (world_step checks env) (world_start m caches requests) w -> reach env m (w_store w).
Proof. exact (@quiet_reach M checks env m caches requests w). Qed.
Print Assumptions C123_quiet.

(** C123: the handle of a dataset object is a copy of the given handle, with the format of the
    metadata; the given handle is left as it was, and no request is sent. *)
Theorem C123_dataset M (checks : list (check M)) (m : M) caches given v w : given < length caches ->
  reach (world_step checks (fun _ _ => False)) (world_start m caches [own_handle given (length caches) v]) w ->
  w_threads w = [(AtIdle, [])] ->
  w_caches w = caches ++ [flag v] /\ w_store w = m /\ copy_of (w_log w) given (length caches).
Proof. exact (@own_handle_done M checks m caches given v w). Qed.
Print Assumptions C123_dataset.

(** C123: a handle without a format asks the store.  If requests are answered, and nobody
    creates or deletes the metadata in the meantime, every answer is right, for all threads. *)
Theorem C123_asked d s0 v (env : s3 -> s3 -> Prop) caches requests w : reliable s0 ->
  (v = true <-> exists k, zarr_object d k /\ In k (map fst (objects s0))) ->
  (forall s s', env s s' -> reliable s' /\ same_format d (objects s) (objects s')) ->
  Forall (fun c => c = unknown \/ c = flag v) caches ->
  (forall r x b, In r requests -> In (QSet x b) r -> b = v) ->
  reach (world_step (s3_checks d) env) (world_start s0 caches requests) w ->
  forall t x o, In (LAnswer t x o) (w_log w) -> o = Ok v.
Proof. exact (@s3_asking d s0 v env caches requests w). Qed.
Print Assumptions C123_asked.

(** C123: the same for files. *)
Theorem C123_asked_files d s0 v (env : fsys -> fsys -> Prop) caches requests w : fs_exists s0 d = true ->
  (v = true <-> fs_exists s0 (d ++ [".zarray"%string]) = true \/ fs_exists s0 (d ++ ["zarr.json"%string]) = true) ->
  (forall s s', env s s' -> forall p, In p [d; d ++ [".zarray"%string]; d ++ ["zarr.json"%string]] -> fs_exists s' p = fs_exists s p) ->
  Forall (fun c => c = unknown \/ c = flag v) caches ->
  (forall r x b, In r requests -> In (QSet x b) r -> b = v) ->
  reach (world_step (fs_checks d) env) (world_start s0 caches requests) w ->
  forall t x o, In (LAnswer t x o) (w_log w) -> o = Ok v.
Proof. exact (@fs_asking d s0 v env caches requests w). Qed.
Print Assumptions C123_asked_files.

(** C123: a call that throws leaves what handles know as it was: the next call asks again. *)
Theorem C123_throw M (checks : list (check M)) (env : M -> M -> Prop) w w' t x e : world_step checks env w w' ->
  w_log w' = LAnswer t x (Throw e) :: w_log w -> w_caches w' = w_caches w.
Proof. exact (@throw_keeps M checks env w w' t x e). Qed.
Print Assumptions C123_throw.

Definition bucket_z : s3 := S3 [("a/.zarray"%string, [])] [].
Definition bucket_0 : s3 := S3 [] [].
Definition any_change : s3 -> s3 -> Prop := fun _ s => reliable s.

(** Refuted without the conditions: one failed request, and the handle says for ever that a
    zarr dataset is an N5 dataset. *)
Theorem C123_failure_refuted : exists w,
  reach (world_step (s3_checks "a") (fun _ _ => False)) (world_start (S3 (objects bucket_z) [Refused]) [unknown] [[QIsZarr 0; QIsZarr 0]]) w /\
  w_store w = bucket_z /\ w_log w = [LAnswer 0 0 (Ok false); LAnswer 0 0 (Ok false)].
Proof.
  eexists. split; [|split].
  - eapply (@play_reach s3 (s3_checks "a") _ [inl 0; inl 0; inl 0; inl 0; inl 0; inl 0; inl 0; inl 0]);
      [apply reach_refl| |vm_compute; reflexivity].
    intros m m' H. cbn in H. repeat (destruct H as [H|H]; [discriminate|]). destruct H.
  - reflexivity.
  - reflexivity.
Qed.
Print Assumptions C123_failure_refuted.

(** Refuted without the conditions: a handle that was asked before the dataset was created does
    not notice the creation. *)
Theorem C123_created_refuted : exists w,
  reach (world_step (s3_checks "a") any_change) (world_start bucket_0 [unknown] [[QIsZarr 0; QIsZarr 0]]) w /\
  w_store w = bucket_z /\ w_log w = [LAnswer 0 0 (Ok false); LAnswer 0 0 (Ok false)].
Proof.
  eexists. split; [|split].
  - eapply (@play_reach s3 (s3_checks "a") _ [inl 0; inl 0; inl 0; inl 0; inl 0; inl 0; inl 0; inr bucket_z; inl 0]);
      [apply reach_refl| |vm_compute; reflexivity].
    intros m m' H. cbn in H. repeat (destruct H as [H|H]; [first [discriminate|injection H as <-; constructor]|]). destruct H.
  - reflexivity.
  - reflexivity.
Qed.
Print Assumptions C123_created_refuted.

(** Refuted without the conditions: when two threads ask while the dataset is created, the
    format of the handle can go from zarr back to N5: thread 1 gets zarr, then N5. *)
Theorem C123_race_refuted : exists w,
  reach (world_step (s3_checks "a") any_change) (world_start bucket_0 [unknown] [[QIsZarr 0]; [QIsZarr 0; QIsZarr 0]]) w /\
  w_store w = bucket_z /\ w_log w = [LAnswer 1 0 (Ok false); LAnswer 0 0 (Ok false); LAnswer 1 0 (Ok true)].
Proof.
  eexists. split; [|split].
  - eapply (@play_reach s3 (s3_checks "a") _ [inl 0; inl 0; inl 0; inl 0; inl 0; inl 0; inl 1; inr bucket_z; inl 1; inl 1; inl 0; inl 1]);
      [apply reach_refl| |vm_compute; reflexivity].
    intros m m' H. cbn in H. repeat (destruct H as [H|H]; [first [discriminate|injection H as <-; constructor]|]). destruct H.
  - reflexivity.
  - reflexivity.
Qed.
Print Assumptions C123_race_refuted.

(** C123_set, C123_quiet: two threads; one copies the handle and asks the copy, the other asks
    the handle; meanwhile the metadata is deleted. *)
Example C123_set_case : exists w,
  reach (world_step (s3_checks "a") any_change) (world_start bucket_z [flag true] [[QCopy 0; QIsZarr 1]; [QIsZarr 0]]) w /\
  copy_of (w_log w) 0 1 /\ In (LAnswer 0 1 (Ok true)) (w_log w) /\ In (LAnswer 1 0 (Ok true)) (w_log w) /\ w_store w = bucket_0.
Proof.
  eexists. split; [|split; [|split; [|split]]].
  - eapply (@play_reach s3 (s3_checks "a") _ [inl 0; inr bucket_0; inl 1; inl 0]); [apply reach_refl| |vm_compute; reflexivity].
    intros m m' H. cbn in H. repeat (destruct H as [H|H]; [first [discriminate|injection H as <-; constructor]|]). destruct H.
  - eapply (@copy_step _ _ 0 0 1); [apply copy_self|]. cbn. auto.
  - cbn. auto.
  - cbn. auto.
  - reflexivity.
Qed.
(** C123_dataset: the constructor ends. *)
Example C123_dataset_case : exists w,
  reach (world_step (s3_checks "a") (fun _ _ => False)) (world_start bucket_z [unknown] [own_handle 0 1 true]) w /\
  w_threads w = [(AtIdle, [])] /\ w_caches w = [unknown; 1%Z].
Proof.
  eexists. split; [|split].
  - eapply (@play_reach s3 (s3_checks "a") _ [inl 0; inl 0]); [apply reach_refl| |vm_compute; reflexivity].
    intros m m' H. cbn in H. repeat (destruct H as [H|H]; [discriminate|]). destruct H.
  - reflexivity.
  - reflexivity.
Qed.
(** C123_asked: two threads ask at the same time, while a chunk is written. *)
Definition bucket_c : s3 := S3 [("a/.zarray"%string, []); ("a/0.0"%string, [])] [].
Definition chunk_written : s3 -> s3 -> Prop := fun s s' => s' = bucket_c /\ same_format "a" (objects s) (objects s').
Example C123_asked_case : reliable bucket_z /\
  (true = true <-> exists k, zarr_object "a" k /\ In k (map fst (objects bucket_z))) /\
  (forall s s', chunk_written s s' -> reliable s' /\ same_format "a" (objects s) (objects s')) /\
  same_format "a" (objects bucket_z) (objects bucket_c) /\
  exists w, reach (world_step (s3_checks "a") chunk_written) (world_start bucket_z [unknown] [[QIsZarr 0]; [QIsZarr 0]]) w /\
  w_log w = [LAnswer 0 0 (Ok true); LAnswer 1 0 (Ok true)].
Proof.
  split; [constructor|]. split; [|split; [|split]].
  - split; auto. intros _. exists "a/.zarray"%string. split; [|left; reflexivity]. exists ".zarray"%string. auto.
  - intros s s' (-> & F). split; [constructor|exact F].
  - intros k (name & N & K). cbn. split; [tauto|]. intros [H|[H|[]]]; [auto|]. subst k. exfalso.
    destruct N as [-> | ->]; destruct K as [K|(r & K)]; discriminate.
  - eexists. split.
    + eapply (@play_reach s3 (s3_checks "a") _ [inl 0; inl 1; inl 0; inl 1; inl 1; inl 0]); [apply reach_refl| |vm_compute; reflexivity].
      intros m m' H. cbn in H. repeat (destruct H as [H|H]; [discriminate|]). destruct H.
    + reflexivity.
Qed.
(** C123_throw: the list request fails; the second call gets the right answer. *)
Example C123_throw_case : exists w w',
  reach (world_step (s3_checks "a") (fun _ _ => False)) (world_start (S3 (objects bucket_z) [Refused; Refused]) [unknown] [[QIsZarr 0; QIsZarr 0]]) w /\
  world_step (s3_checks "a") (fun _ _ => False) w w' /\ w_log w' = LAnswer 0 0 (Throw ERuntime) :: w_log w /\
  exists w'', reach (world_step (s3_checks "a") (fun _ _ => False)) w' w'' /\ w_log w'' = LAnswer 0 0 (Ok true) :: w_log w'.
Proof.
  eexists. eexists. split; [|split; [|split]].
  - eapply (@play_reach s3 (s3_checks "a") _ [inl 0; inl 0]); [apply reach_refl| |vm_compute; reflexivity].
    intros m m' H. cbn in H. repeat (destruct H as [H|H]; [discriminate|]). destruct H.
  - apply (@step_thread _ _ _ _ 0). vm_compute. reflexivity.
  - reflexivity.
  - eexists. split.
    + eapply (@play_reach s3 (s3_checks "a") _ [inl 0; inl 0; inl 0]); [apply reach_refl| |vm_compute; reflexivity].
      intros m m' H. cbn in H. repeat (destruct H as [H|H]; [discriminate|]). destruct H.
    + reflexivity.
Qed.
(** C123_asked_files: an N5 dataset; two threads ask. *)
Definition n5_directory : fsys := fun p => match p with [] => Some NDir | ["a"%string] => Some NDir | _ => None end.
Example C123_asked_files_case : fs_exists n5_directory ["a"%string] = true /\
  exists w, reach (world_step (fs_checks ["a"%string]) (fun _ _ => False)) (world_start n5_directory [unknown] [[QIsZarr 0]; [QIsZarr 0]]) w /\
  w_log w = [LAnswer 1 0 (Ok false); LAnswer 0 0 (Ok false)].
Proof.
  split; [reflexivity|]. eexists. split.
  - eapply (@play_reach fsys (fs_checks ["a"%string]) _ [inl 0; inl 1; inl 0; inl 1; inl 1; inl 0; inl 0; inl 1; inl 0; inl 1; inl 0; inl 1]);
      [apply reach_refl| |vm_compute; reflexivity].
    intros m m' H. cbn in H. repeat (destruct H as [H|H]; [discriminate|]). destruct H.
  - reflexivity.
Qed.
