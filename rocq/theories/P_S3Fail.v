(** Failing requests to the object store. *)
From Verif Require Import M_Base M_Text M_Key M_Blocking M_View M_Bytes M_N5Header M_Format
  M_Mode M_Shard M_Dataset M_Sharded M_Access M_Store M_S3 S_Text S_S3 P_Base P_Key P_Dataset P_Store P_S3 P_S3Sim.
Set Implicit Arguments.

Section Fail.
Variables (name : string) (s0 : s3).

Definition twin (s1 s2 : s3) : Prop := fates s1 = [] /\ objects s1 = objects s2 /\ others_same name s0 s2.
Notation relF := (rel twin (eq ERuntime) (others_same name s0)).

Lemma served A ef (an : _ -> A) s : fates s = [] -> request ef an s = (S3 (ef (objects s)) [], Some (an (objects s))).
Proof. unfold request. now intros ->. Qed.

Lemma others_effect ef l : (forall k, ~ (exists r, k = name ++ "/" ++ r)%string -> lookup (ef l) k = lookup l k) ->
  (forall k, ~ (exists r, k = name ++ "/" ++ r)%string -> lookup l k = lookup (objects s0) k) ->
  forall s, objects s = l \/ objects s = ef l -> others_same name s0 s.
Proof. intros H K s [E|E] k N; rewrite E; [now apply K|]. rewrite H by exact N. now apply K. Qed.

Lemma throwing A ef (an : _ -> A) : (forall l k, ~ (exists r, k = name ++ "/" ++ r)%string -> lookup (ef l) k = lookup l k) ->
  relF (or_throw (request ef an)) (or_throw (request ef an)).
Proof.
  intros H s1 s2 (F & E & O). unfold or_throw. rewrite (served ef an F). cbn [fst snd].
  destruct (request ef an s2) as [s2' r2] eqn:Q. apply request_any in Q as [Q1 Q2].
  assert (others_same name s0 s2') by (apply (@others_effect ef (objects s2)); auto).
  destruct r2 as [a|]; cbn [fst snd].
  - left. destruct (Q2 a eq_refl) as [-> Ob]. repeat split; cbn; auto; congruence.
  - right. exists ERuntime. auto.
Qed.

Lemma outside_object k key : ~ (exists r, k = name ++ "/" ++ r)%string -> String.eqb k (chunk_object name key) = false.
Proof. intros N. apply String.eqb_neq. intros ->. apply N. exists key. reflexivity. Qed.

Lemma fail_read key : relF (p_read (s3_policy name) key) (p_read (s3_policy name) key).
Proof. apply throwing. auto. Qed.
Lemma fail_write k key b : relF (p_write (s3_policy name) k key b) (p_write (s3_policy name) k key b).
Proof. apply throwing. intros l x N. rewrite lookup_put. now rewrite outside_object. Qed.
Lemma fail_delete key : relF (delete_object (chunk_object name key)) (delete_object (chunk_object name key)).
Proof. apply throwing. intros l x N. rewrite lookup_delete. cbn [existsb]. now rewrite outside_object. Qed.

Lemma sh_call_fails sd c : relF (sh_call (s3_policy name) sd c) (sh_call (s3_policy name) sd c).
Proof.
  apply (@rel_sh_call _ _ twin (eq ERuntime) (others_same name s0) (s3_policy name) (s3_policy name) (d_key (sd_base sd))); auto; intros ids; intros.
  - apply fail_read.
  - apply fail_write.
  - apply fail_delete.
  - apply fail_delete.
Qed.
Lemma call_fails d c : single_chunk c -> relF (call (s3_policy name) d c) (call (s3_policy name) d c).
Proof.
  intros H. destruct c; cbn [call]; try contradiction; apply rel_map.
  - apply (rel_write_chunk (k := d_key d)); auto; intros; [apply fail_write|apply fail_delete].
  - apply (rel_write_chunk (k := d_key d)); auto; intros; [apply fail_write|apply fail_delete].
  - apply (rel_read_chunk (k := d_key d)); auto; intros; apply fail_read.
  - apply (rel_read_raw (k := d_key d)); auto; intros; apply fail_read.
  - apply (rel_remove_chunk (k := d_key d)); auto; intros; apply fail_delete.
Qed.
End Fail.


Lemma twin_start name s : twin name s (quiet s) s.
Proof. repeat split. Qed.

Theorem sharded_failure name sd c s :
  let '(s', r) := sh_call (s3_policy name) sd c s in
  let '(s1, r1) := sh_call (s3_policy name) sd c (quiet s) in
  others_same name s s' /\ (r = Throw ERuntime \/ r = r1 /\ objects s' = objects s1).
Proof.
  pose proof (@sh_call_fails name s sd c _ _ (twin_start name s)) as H.
  destruct (sh_call (s3_policy name) sd c s) as [s' r], (sh_call (s3_policy name) sd c (quiet s)) as [s1 r1]. cbn [fst snd] in H.
  destruct H as [[(_ & E & O) R]|(e & <- & R & O)]; auto.
Qed.
Theorem chunk_failure name d c s : single_chunk c ->
  let '(s', r) := call (s3_policy name) d c s in
  let '(s1, r1) := call (s3_policy name) d c (quiet s) in
  others_same name s s' /\ (r = Throw ERuntime \/ r = r1 /\ objects s' = objects s1).
Proof.
  intros Hc. pose proof (@call_fails name s d c Hc _ _ (twin_start name s)) as H.
  destruct (call (s3_policy name) d c s) as [s' r], (call (s3_policy name) d c (quiet s)) as [s1 r1]. cbn [fst snd] in H.
  destruct H as [[(_ & E & O) R]|(e & <- & R & O)]; auto.
Qed.

(** ** A failing call that changes one object leaves the old or the new one *)

Definition one_step {A} (a : act s3 A) : Prop := forall s, objects (fst (a s)) = objects s \/ objects (fst (a s)) = objects (fst (a (quiet s))).
(** Reads that report failures. *)
Definition reading {A} (a : act s3 A) : Prop := forall s, objects (fst (a s)) = objects s /\
  (snd (a s) = Throw ERuntime \/ snd (a s) = snd (a (quiet s)) /\ fst (a (quiet s)) = quiet s).

Lemma one_ret A (o : outcome A) : one_step (aret o).
Proof. intros s. auto. Qed.
Lemma one_bind_ret A B (o : outcome A) (f : A -> act s3 B) : (forall x, one_step (f x)) -> one_step (abind (aret o) f).
Proof. intros H s. unfold abind, aret. destruct o; cbn [fst]; auto. apply H. Qed.
Lemma one_bind A B (a : act s3 A) (f : A -> act s3 B) : reading a -> (forall x, one_step (f x)) -> one_step (abind a f).
Proof.
  intros R H s. destruct (R s) as [O K]. unfold abind. destruct (a s) as [t r], (a (quiet s)) as [t1 r1]. cbn [fst snd] in *.
  destruct K as [->|[-> ->]]; [auto|]. destruct r1; cbn [fst]; auto. destruct (H a0 t) as [X|X]; rewrite X.
  - rewrite O. auto.
  - right. unfold quiet. rewrite O. reflexivity.
Qed.
Lemma reading_ret A (o : outcome A) : reading (aret o).
Proof. intros s. cbn. auto. Qed.
Lemma reading_bind A B (a : act s3 A) (f : A -> act s3 B) : reading a -> (forall x, reading (f x)) -> reading (abind a f).
Proof.
  intros R H s. destruct (R s) as [O K]. unfold abind. destruct (a s) as [t r], (a (quiet s)) as [t1 r1]. cbn [fst snd] in *.
  destruct K as [->|[-> ->]]; [auto|]. destruct r1; cbn [fst snd]; auto. destruct (H a0 t) as [X Y]. rewrite X, O. split; [reflexivity|].
  assert (quiet t = quiet s) as Q by (unfold quiet; now rewrite O). rewrite Q in Y. exact Y.
Qed.
Lemma reading_get key : reading (get_object key).
Proof.
  intros s. unfold get_object, or_throw. destruct (request _ _ s) as [t r] eqn:Q. apply request_read in Q as [O A].
  rewrite (served (fun l => l) (fun l => lookup l key) (s := quiet s) eq_refl). destruct r as [a|]; cbn [fst snd]; [|auto].
  split; [exact O|]. right. rewrite (A a eq_refl). auto.
Qed.
Lemma one_request A ef (an : _ -> A) : one_step (or_throw (request ef an)).
Proof.
  intros s. unfold or_throw. rewrite (served ef an (s := quiet s) eq_refl). destruct (request ef an s) as [t r] eqn:Q. apply request_any in Q as [Q _].
  destruct r; exact Q.
Qed.
Lemma one_map A B (f : A -> B) a : one_step a -> one_step (amap f a).
Proof. intros H s. apply (H s). Qed.
Lemma one_reading A (a : act s3 A) : reading a -> one_step a.
Proof. intros R s. left. apply R. Qed.

Lemma one_write_chunk name d ids data vl vs : one_step (g_write_chunk (s3_policy name) d ids data vl vs).
Proof.
  unfold g_write_chunk. destruct (negb _); [apply one_ret|]. apply one_bind_ret. intros h. apply one_bind_ret. intros _. apply one_bind_ret.
  intros [b|]; apply one_request.
Qed.
Lemma one_remove_chunk name d ids : one_step (g_remove_chunk (s3_policy name) d ids).
Proof. unfold g_remove_chunk. apply one_bind_ret. intros h. destruct (negb _); [apply one_ret|apply one_request]. Qed.
Lemma reading_raw name d ids : reading (g_read_raw_chunk (s3_policy name) d ids).
Proof. unfold g_read_raw_chunk. apply reading_bind; [apply reading_ret|]. intros h. apply reading_bind; [apply reading_get|]. intros o. apply reading_ret. Qed.
Lemma reading_chunk name d ids out : reading (g_read_chunk (s3_policy name) d ids out).
Proof.
  unfold g_read_chunk. apply reading_bind; [apply reading_ret|]. intros h. apply reading_bind; [apply reading_ret|]. intros _.
  apply reading_bind; [apply reading_get|]. intros [b|]; apply reading_ret.
Qed.
Lemma reading_shard_blobs name sd c : reading (g_read_shard_blobs (s3_policy name) sd c).
Proof.
  unfold g_read_shard_blobs. apply reading_bind; [apply reading_ret|]. intros h. apply reading_bind; [apply reading_get|]. intros [b|]; [|apply reading_ret].
  apply reading_bind; [apply reading_ret|]. intros [es|]; apply reading_ret.
Qed.
Lemma reading_shard name sd ids : reading (g_read_shard (s3_policy name) sd ids).
Proof.
  unfold g_read_shard. apply reading_bind; [apply reading_ret|]. intros c. apply reading_bind; [apply reading_ret|]. intros h.
  apply reading_bind; [apply reading_get|]. intros [b|]; [|apply reading_ret]. apply reading_bind; [apply reading_ret|]. intros [es|]; apply reading_ret.
Qed.
Lemma one_write_inner name sd ids blob : one_step (g_write_inner_blob (s3_policy name) sd ids blob).
Proof.
  unfold g_write_inner_blob. apply one_bind_ret. intros c. apply one_bind_ret. intros slot. apply one_bind; [apply reading_shard_blobs|].
  intros blobs. apply one_bind_ret. intros blobs'. unfold g_write_shard_blobs. destruct (negb _); [apply one_ret|]. apply one_bind_ret. intros h.
  destruct (all_slots_empty _); apply one_request.
Qed.

Theorem chunk_failure_state name d c s : single_chunk c ->
  let s' := fst (call (s3_policy name) d c s) in
  objects s' = objects s \/ objects s' = objects (fst (call (s3_policy name) d c (quiet s))).
Proof.
  intros Hc. destruct c; try contradiction; cbn [call]; revert s; apply one_map;
    [apply one_write_chunk|apply one_write_chunk|apply one_reading, reading_chunk|apply one_reading, reading_raw|apply one_remove_chunk].
Qed.
Theorem sharded_failure_state name sd c s : single_chunk c ->
  let s' := fst (sh_call (s3_policy name) sd c s) in
  objects s' = objects s \/ objects s' = objects (fst (sh_call (s3_policy name) sd c (quiet s))).
Proof.
  intros Hc. destruct c; try contradiction; cbn [sh_call]; revert s; apply one_map.
  1, 2: unfold g_sh_write_chunk; destruct (negb _); [apply one_ret|]; apply one_bind_ret; intros h; apply one_bind_ret; intros bl;
    destruct (negb _); [apply one_ret|]; cbn [andb]; try apply one_ret; apply one_bind_ret; intros blob; apply one_write_inner.
  - apply one_reading. unfold g_sh_read_chunk, g_sh_read_raw_chunk. apply reading_bind; [|intros b; apply reading_bind; intros; apply reading_ret].
    apply reading_bind; [apply reading_shard|intros r; apply reading_ret].
  - apply one_reading. unfold g_sh_read_raw_chunk. apply reading_bind; [apply reading_shard|intros r; apply reading_ret].
  - apply one_write_inner.
Qed.

(** ** exists() *)
Theorem s3_exists_any h s s' r : s3_exists h s = (s', r) -> objects s' = objects s /\
  (r = Throw ERuntime \/ exists b, r = Ok b /\ (b = true <-> exists k, held s k /\ inside (sh_name h) k)).
Proof.
  unfold s3_exists, any_with_prefix, or_throw. destruct (request _ _ s) as [t o] eqn:Q. apply request_read in Q as [O A].
  destruct o as [b|]; intros [= <- <-]; split; auto. right. exists b. split; [reflexivity|]. rewrite (A b eq_refl), any_answer.
  split; intros (k & K & I); exists k; (split; [now apply held_in|now apply node_prefix_inside]).
Qed.
