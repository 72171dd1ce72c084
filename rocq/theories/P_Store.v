(** The model written for the file system is the generic code over [fs_policy]. *)
From Verif Require Import M_Base M_Text M_Key M_Blocking M_View M_Bytes M_N5Header M_Format
  M_Mode M_Shard M_Dataset M_Sharded M_Access M_Store.
Set Implicit Arguments.

Lemma abind_ret S A B (o : outcome A) (f : A -> act S B) s :
  abind (aret o) f s = match o with Ok a => f a s | Throw e => (s, Throw e) | UB => (s, UB) end.
Proof. unfold abind, aret. destruct o; reflexivity. Qed.

(** A generic call that only reads. *)
Definition only_reads {S A} (a : act S A) (f : S -> outcome A) : Prop := forall s, a s = (s, f s).

Lemma reads_ret S A (o : outcome A) : only_reads (S := S) (aret o) (fun _ => o).
Proof. intros s. reflexivity. Qed.

Lemma reads_bind S A B (a : act S A) f (k : A -> act S B) g : only_reads a f ->
  (forall x, only_reads (k x) (g x)) -> only_reads (abind a k) (fun s => bind (f s) (fun x => g x s)).
Proof. intros H1 H2 s. unfold abind, bind. rewrite H1. destruct (f s); [apply H2|reflexivity..]. Qed.

Lemma reads_ext S A (a : act S A) f g : only_reads a f -> (forall s, f s = g s) -> only_reads a g.
Proof. intros H E s. rewrite H. now rewrite E. Qed.

Lemma reads_fold S A B (f : B -> A -> act S B) g l : (forall b a, only_reads (f b a) (fun s => g s b a)) ->
  forall acc, only_reads (afold f l acc) (fun s => foldM (g s) l acc).
Proof.
  intros H. induction l as [|x r IH]; intros acc; [apply reads_ret|]. cbn [afold]. 
  eapply reads_ext; [apply (reads_bind (H acc x) (g := fun y s => foldM (g s) r y)); intros; apply IH|].
  intros s. reflexivity.
Qed.

(** Equality of calls that may write. *)
Definition same {S A} (a b : act S A) : Prop := forall s, a s = b s.

Lemma same_bind A B (a b : action A) (f g : A -> action B) : same a b -> (forall x, same (f x) (g x)) ->
  same (abind a f) (sbind b g).
Proof. intros H1 H2 s. unfold abind, sbind. rewrite H1. destruct (b s) as [s' [x|e|]]; [apply H2|reflexivity..]. Qed.
Lemma same_fold A B (f g : B -> A -> action B) l : (forall b a, same (f b a) (g b a)) ->
  forall acc, same (afold f l acc) (foldS g l acc).
Proof.
  intros H. induction l as [|x r IH]; intros acc; [intros s; reflexivity|]. cbn [afold foldS]. apply same_bind; auto.
Qed.
Lemma same_pure A (o : outcome A) : same (aret o) (pure o). Proof. intros s. reflexivity. Qed.
Lemma same_reading A (a : action A) f : only_reads a f -> same a (reading f).
Proof. intros H s. apply H. Qed.

Notation F := fs_policy.

Lemma fs_write_chunk d ids data vl vs : same (g_write_chunk F d ids data vl vs) (write_chunk d ids data vl vs).
Proof.
  unfold g_write_chunk, write_chunk. destruct (negb _); [apply same_pure|].
  apply same_bind; [apply same_pure|intros h]. apply same_bind; [apply same_pure|intros _].
  apply same_bind; [apply same_pure|intros [b|]]; intros s; reflexivity.
Qed.

Lemma fs_read_chunk d ids out : only_reads (g_read_chunk F d ids out) (fun st => read_chunk d st ids out).
Proof.
  intros s. unfold g_read_chunk, read_chunk. rewrite abind_ret. destruct (chunk_handle_of _ _ _); cbn [bind]; try reflexivity.
  rewrite abind_ret. destruct (check_chunk _ _ _); cbn [bind]; try reflexivity. unfold abind. cbn [p_read F].
  unfold store_read. destruct (s _); reflexivity.
Qed.

Lemma fs_read_raw d ids : only_reads (g_read_raw_chunk F d ids) (fun st => read_raw_chunk d st ids).
Proof.
  intros s. unfold g_read_raw_chunk, read_raw_chunk. rewrite abind_ret.
  destruct (chunk_handle_of _ _ _); reflexivity.
Qed.

Lemma fs_chunk_exists d ids : only_reads (g_chunk_exists F d ids) (fun st => chunk_exists d st ids).
Proof. intros s. unfold g_chunk_exists, chunk_exists. rewrite abind_ret. destruct (chunk_handle_of _ _ _); reflexivity. Qed.

Lemma fs_check_varlen d ids : only_reads (g_check_varlen F d ids) (fun st => check_varlen_chunk d st ids).
Proof.
  intros s. unfold g_check_varlen, check_varlen_chunk. rewrite abind_ret. destruct (chunk_handle_of _ _ _); cbn [bind]; try reflexivity.
  cbn [p_headers F]. destruct (d_zarr d); [reflexivity|]. unfold abind. cbn [p_exists p_header F].
  destruct (s _) as [b|] eqn:E; cbn [negb]; [|reflexivity]. rewrite E. destruct (read_varlen_from_header b); reflexivity.
Qed.

Lemma fs_remove_chunk d ids : same (g_remove_chunk F d ids) (remove_chunk d ids).
Proof.
  unfold g_remove_chunk, remove_chunk. apply same_bind; [apply same_pure|intros h]. destruct (negb _); intros s; reflexivity.
Qed.


Lemma fs_read_unit d ov off n state c : only_reads (g_read_unit F d ov off n state c) (fun st => read_unit d st ov off n state c).
Proof.
  intros s. unfold g_read_unit, read_unit. destruct state as [buffer out]. rewrite abind_ret.
  destruct (coords_in_roi _ _ _ _ _) as [r|e|]; cbn [bind]; try reflexivity. unfold abind at 1. rewrite (fs_chunk_exists d c s).
  destruct (chunk_exists d s c) as [[]|e|]; cbn [bind negb]; try reflexivity.
  2:{ rewrite abind_ret. destruct (fill_view _ _ _); reflexivity. }
  rewrite abind_ret. destruct (get_chunk_shape d c) as [cs|e|]; cbn [bind]; try reflexivity. unfold abind at 1. rewrite (fs_read_raw d c s).
  destruct (read_raw_chunk d s c) as [b|e|]; cbn [bind]; try reflexivity. rewrite abind_ret.
  destruct (if d_zarr d then _ else _) as [[sz len]|e|]; cbn [bind]; try reflexivity.
  rewrite abind_ret. destruct (decompress _ _ _ _ _) as [b2|e|]; cbn [bind]; try reflexivity.
  rewrite abind_ret. destruct (if negb (d_zarr d) && _ then _ else _) as [b3|e|]; cbn [bind]; try reflexivity.
  rewrite abind_ret. destruct (copy_view _ _ _ _) as [o|e|]; reflexivity.
Qed.

Theorem fs_read_subarray d ov off out : only_reads (g_read_subarray F d ov off out) (fun st => read_subarray d st ov off out).
Proof.
  intros s. unfold g_read_subarray, read_subarray, read_plain. rewrite abind_ret.
  destruct (begin_request _ _ _) as [reqs|e|]; cbn [bind]; try reflexivity. unfold abind at 1.
  rewrite (@reads_fold _ _ _ _ (fun st => read_unit d st ov off (v_shape ov)) reqs (fun b a => @fs_read_unit d ov off (v_shape ov) b a) _ s).
  destruct (foldM _ _ _); reflexivity.
Qed.

Lemma fs_plain_existing d c buf : only_reads (g_plain_existing F d c buf) (fun st => plain_existing d st c buf).
Proof.
  intros s. unfold g_plain_existing, plain_existing. unfold abind at 1. rewrite (fs_chunk_exists d c s).
  destruct (chunk_exists d s c) as [[]|e|]; cbn [bind negb]; try reflexivity. unfold abind at 1. rewrite (fs_read_chunk d c buf s).
  destruct (read_chunk d s c buf) as [r|e|]; reflexivity.
Qed.

Lemma fs_prepare_chunk d off n c src (ge : list cell -> act store (bool * list cell)) re buffer :
  (forall b, only_reads (ge b) (fun st => re st b)) ->
  only_reads (g_prepare_chunk d off n c src ge buffer) (fun st => prepare_chunk d off n c src (re st) buffer).
Proof.
  intros H s. unfold g_prepare_chunk, prepare_chunk. rewrite abind_ret. destruct (coords_in_roi _ _ _ _ _) as [r|e|]; cbn [bind]; try reflexivity.
  rewrite abind_ret. destruct (get_chunk_shape d c) as [cs|e|]; cbn [bind]; try reflexivity.
  destruct (r_complete r && _); [reflexivity|]. unfold abind at 1. rewrite H. destruct (re s _) as [x|e|]; reflexivity.
Qed.

Lemma fs_write_unit d src off n buffer c : same (g_write_unit F d src off n buffer c) (write_unit d src off n buffer c).
Proof.
  unfold g_write_unit, write_unit. apply same_bind.
  - apply same_reading, fs_prepare_chunk. intros b. apply fs_plain_existing.
  - intros b. apply same_bind; [apply fs_write_chunk|intros _; apply same_pure].
Qed.

Theorem fs_write_request d src off n : same (g_write_request F d src off n) (write_request d src off n).
Proof.
  unfold g_write_request, write_request, write_plain. apply same_bind; [apply same_pure|intros reqs].
  apply same_bind; [|intros _; apply same_pure]. apply same_fold. intros b a. apply fs_write_unit.
Qed.

Lemma fs_read_shard_blobs sd coord : only_reads (g_read_shard_blobs F sd coord) (fun st => read_shard_blobs sd st coord).
Proof.
  intros s. unfold g_read_shard_blobs, read_shard_blobs. rewrite abind_ret. destruct (shard_handle sd coord); cbn [bind]; try reflexivity.
  unfold abind at 1. cbn [p_read F]. destruct (store_read s _); [|reflexivity]. rewrite abind_ret.
  destruct (parse_shard_index _ _) as [[]|e|]; reflexivity.
Qed.

Lemma fs_read_shard_raw sd coord : only_reads (g_read_shard_raw F sd coord) (fun st => read_shard_raw sd st coord).
Proof.
  intros s. unfold g_read_shard_raw, read_shard_raw. rewrite abind_ret. destruct (shard_handle sd coord); cbn [bind]; try reflexivity.
  unfold abind at 1. cbn [p_read F]. destruct (store_read s _); [|reflexivity]. rewrite abind_ret.
  destruct (parse_shard_index _ _) as [[]|e|]; reflexivity.
Qed.

Lemma fs_write_shard_blobs sd coord blobs : same (g_write_shard_blobs F sd coord blobs) (write_shard_blobs sd coord blobs).
Proof.
  unfold g_write_shard_blobs, write_shard_blobs. destruct (negb _); [apply same_pure|].
  apply same_bind; [apply same_pure|intros h]. destruct (all_slots_empty blobs); intros s; reflexivity.
Qed.

Lemma fs_read_shard sd ids : only_reads (g_read_shard F sd ids) (fun st => read_shard sd st ids).
Proof.
  intros s. unfold g_read_shard, read_shard. rewrite abind_ret. destruct (shard_id ids _); cbn [bind]; try reflexivity.
  rewrite abind_ret. destruct (shard_handle sd _); cbn [bind]; try reflexivity.
  unfold abind at 1. cbn [p_read F]. destruct (store_read s _); [|reflexivity]. rewrite abind_ret.
  destruct (parse_shard_index _ _) as [[]|e|]; reflexivity.
Qed.

Lemma fs_write_inner_blob sd ids blob : same (g_write_inner_blob F sd ids blob) (write_inner_blob sd ids blob).
Proof.
  unfold g_write_inner_blob, write_inner_blob. apply same_bind; [apply same_pure|intros coord].
  apply same_bind; [apply same_pure|intros slot]. apply same_bind; [apply same_reading, fs_read_shard_blobs|intros blobs].
  apply same_bind; [apply same_pure|intros blobs']. apply fs_write_shard_blobs.
Qed.

Lemma fs_sh_write_chunk sd ids data vl : same (g_sh_write_chunk F sd ids data vl) (sh_write_chunk sd ids data vl).
Proof.
  unfold g_sh_write_chunk, sh_write_chunk. destruct (negb _); [apply same_pure|].
  apply same_bind; [apply same_pure|intros h]. apply same_bind; [apply same_pure|intros bl].
  destruct (negb _); [apply same_pure|]. destruct vl; [apply same_pure|].
  apply same_bind; [apply same_pure|intros blob]. apply fs_write_inner_blob.
Qed.

Lemma fs_sh_read_raw sd ids : only_reads (g_sh_read_raw_chunk F sd ids) (fun st => sh_read_raw_chunk sd st ids).
Proof.
  intros s. unfold g_sh_read_raw_chunk, sh_read_raw_chunk. unfold abind at 1. rewrite (fs_read_shard sd ids s).
  destruct (read_shard sd s ids) as [[[]|]|e|]; reflexivity.
Qed.

Lemma fs_sh_read_chunk sd ids out : only_reads (g_sh_read_chunk F sd ids out) (fun st => sh_read_chunk sd st ids out).
Proof.
  intros s. unfold g_sh_read_chunk, sh_read_chunk. unfold abind at 1. rewrite (fs_sh_read_raw sd ids s).
  destruct (sh_read_raw_chunk sd s ids) as [b|e|]; cbn [bind]; try reflexivity. rewrite abind_ret.
  destruct (decompress _ _ _ _ _); reflexivity.
Qed.

Lemma fs_sh_chunk_exists sd ids : only_reads (g_sh_chunk_exists F sd ids) (fun st => sh_chunk_exists sd st ids).
Proof.
  intros s. unfold g_sh_chunk_exists, sh_chunk_exists. unfold abind at 1. rewrite (fs_read_shard sd ids s).
  destruct (read_shard sd s ids) as [[[]|]|e|]; reflexivity.
Qed.

Lemma fs_sh_remove_chunk sd ids : same (g_sh_remove_chunk F sd ids) (sh_remove_chunk sd ids).
Proof. apply fs_write_inner_blob. Qed.

Lemma fs_shard_write_unit sd src off n buffer g : same (g_shard_write_unit F sd src off n buffer g) (shard_write_unit sd src off n buffer g).
Proof.
  intros s. unfold g_shard_write_unit, shard_write_unit. unfold abind at 1. rewrite (fs_read_shard_blobs sd (fst g) s).
  unfold sbind at 1, reading. destruct (read_shard_blobs sd s (fst g)) as [blobs|e|]; cbn [bind]; try reflexivity.
Qed.

Theorem fs_sh_write_request sd src off n : same (g_sh_write_request F sd src off n) (sh_write_request sd src off n).
Proof.
  unfold g_sh_write_request, sh_write_request, write_sharded. apply same_bind; [apply same_pure|intros reqs].
  destruct (negb _); [apply same_pure|]. apply same_bind; [apply same_pure|intros cps].
  apply same_bind; [apply same_pure|intros groups]. apply same_bind; [|intros _; apply same_pure].
  apply same_fold. intros b a. apply fs_shard_write_unit.
Qed.

Lemma fs_shard_read_unit sd ov off n state g : only_reads (g_shard_read_unit F sd ov off n state g) (fun st => shard_read_unit sd st ov off n state g).
Proof.
  intros s. unfold g_shard_read_unit, shard_read_unit. unfold abind at 1. rewrite (fs_read_shard_raw sd (fst g) s).
  destruct (read_shard_raw sd s (fst g)); reflexivity.
Qed.

Theorem fs_sh_read_subarray sd ov off out : only_reads (g_sh_read_subarray F sd ov off out) (fun st => sh_read_subarray sd st ov off out).
Proof.
  intros s. unfold g_sh_read_subarray, sh_read_subarray. rewrite abind_ret.
  destruct (begin_request _ _ _) as [reqs|e|]; cbn [bind]; try reflexivity. rewrite abind_ret.
  destruct (chunks_per_shard _ _) as [cps|e|]; cbn [bind]; try reflexivity. rewrite abind_ret.
  destruct (group_chunks _ _) as [groups|e|]; cbn [bind]; try reflexivity. unfold abind at 1.
  rewrite (@reads_fold _ _ _ _ (fun st => shard_read_unit sd st ov off (v_shape ov)) groups (fun b a => @fs_shard_read_unit sd ov off (v_shape ov) b a) _ s).
  destruct (foldM _ _ _); reflexivity.
Qed.
