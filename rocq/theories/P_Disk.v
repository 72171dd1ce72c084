(** Failing accesses to the disk. *)
From Verif Require Import M_Base M_Text M_Key M_Blocking M_View M_Bytes M_N5Header M_Format
  M_Mode M_Shard M_Dataset M_Sharded M_Access M_Store M_S3 M_Disk S_Array S_Grid S_Text S_S3 S_Crash S_Disk
  P_Base P_Key P_Dataset P_Store P_S3 P_S3Sim.
Set Implicit Arguments.

(** ** Reads *)
Section Reads.
Variable st0 : store.
Definition still (st : store) (s : disk) : Prop := st = st0 /\ disk_files s = st0.
Notation relR := (rel still disk_error (fun s => disk_files s = st0)).

Lemma next_files s : disk_files (fst (next_fate s)) = disk_files s.
Proof. unfold next_fate. now destruct (disk_fates s). Qed.
Lemma next_saves s : saves_all s -> saves_all (fst (next_fate s)) /\ forall n, snd (next_fate s) <> Unsaved n.
Proof.
  intros H. unfold next_fate. destruct (disk_fates s) as [|f r] eqn:E; cbn [fst snd]; [split; [exact H|discriminate]|].
  split; [intros n Hn; apply (H n); rewrite E; now right|]. intros n ->. apply (H n). rewrite E. now left.
Qed.

Lemma access_rel A e (an : store -> A) : disk_error e -> relR (fun st => (st, Ok (an st))) (access e an).
Proof.
  intros He st s [-> F]. unfold access. pose proof (next_files s) as N. destruct (next_fate s) as [s' f]. cbn [fst snd] in *.
  destruct f; cbn [fst snd]; [left|right; exists e|left]; unfold still; rewrite ?N, ?F; auto.
Qed.
Lemma rel_eq A (a1 a1' : act store A) (a2 : act disk A) : (forall st, a1 st = a1' st) -> relR a1 a2 -> relR a1' a2.
Proof. intros E H st s Hs. rewrite <- E. now apply H. Qed.

Lemma disk_exists_rel key : relR (p_exists fs_policy key) (p_exists disk_policy key).
Proof. apply access_rel. unfold disk_error; auto. Qed.
Lemma disk_read_rel key : relR (p_read fs_policy key) (p_read disk_policy key).
Proof.
  cbn [p_read fs_policy disk_policy]. unfold disk_read, read_file.
  apply (@rel_eq _ (abind (fun st => (st, Ok (match st key with None => false | Some _ => true end)))
    (fun ex => if negb ex then aret (Ok None) else
       abind (abind (fun st => (st, Ok tt)) (fun _ => abind (fun st => (st, Ok tt)) (fun _ => fun st => (st, Ok (match st key with None => [] | Some b => b end)))))
         (fun b => aret (Ok (Some b)))))).
  { intros st. unfold abind, aret, store_read. destruct (st key) eqn:E; cbn [negb]; [rewrite E|]; reflexivity. }
  apply rel_bind; [apply disk_exists_rel|]. intros []; cbn [negb]; [|apply rel_ret].
  apply rel_bind; [|intros b; apply rel_ret].
  apply rel_bind; [apply access_rel; unfold disk_error; auto|intros _].
  apply rel_bind; [apply access_rel; unfold disk_error; auto|intros _].
  apply access_rel; unfold disk_error; auto.
Qed.

Lemma read_call_rel d c : reads_only c -> relR (call fs_policy d c) (call disk_policy d c).
Proof.
  intros H. destruct c; try contradiction; cbn [call]; apply rel_map.
  - apply (rel_read_chunk (k := d_key d)); auto using disk_read_rel.
  - apply (rel_read_raw (k := d_key d)); auto using disk_read_rel.
  - apply (rel_chunk_exists (k := d_key d)); auto using disk_exists_rel.
  - apply (rel_read_subarray (k := d_key d)); auto using disk_exists_rel, disk_read_rel.
Qed.
Lemma read_sh_call_rel sd c : reads_only c -> relR (sh_call fs_policy sd c) (sh_call disk_policy sd c).
Proof.
  intros H. destruct c; try contradiction; cbn [sh_call]; apply rel_map.
  - apply (rel_sh_read_chunk (k := d_key (sd_base sd))); auto using disk_read_rel.
  - apply (rel_sh_read_raw (k := d_key (sd_base sd))); auto using disk_read_rel.
  - apply (rel_sh_exists (k := d_key (sd_base sd))); auto using disk_read_rel.
  - apply (rel_sh_read_subarray (k := d_key (sd_base sd))); auto using disk_read_rel.
Qed.
End Reads.

Lemma still_answer A (a1 : act store A) a2 s : rel (still (disk_files s)) disk_error (fun s' => disk_files s' = disk_files s) a1 a2 ->
  let '(s', r) := a2 s in disk_files s' = disk_files s /\ (r = snd (a1 (disk_files s)) \/ exists e, disk_error e /\ r = Throw e).
Proof.
  intros H. destruct (H (disk_files s) s (conj eq_refl eq_refl)) as [[[_ F] E]|(e & De & E & F)]; destruct (a2 s) as [s' r]; cbn [fst snd] in *; eauto.
Qed.
Theorem read_failure d c s : reads_only c ->
  let '(s', r) := call disk_policy d c s in
  disk_files s' = disk_files s /\ (r = snd (fs_call d c (disk_files s)) \/ exists e, disk_error e /\ r = Throw e).
Proof. intros H. rewrite <- fs_call_eq. apply still_answer. now apply read_call_rel. Qed.
Theorem sh_read_failure sd c s : reads_only c ->
  let '(s', r) := sh_call disk_policy sd c s in
  disk_files s' = disk_files s /\ (r = snd (fs_sh_call sd c (disk_files s)) \/ exists e, disk_error e /\ r = Throw e).
Proof. intros H. rewrite <- fs_sh_call_eq. apply still_answer. now apply read_sh_call_rel. Qed.

(** ** Frames: which files a call may change, over any store of files *)
Section Frames.
Variables (S : Type) (files : S -> store) (P : policy S).
Hypothesis rd : forall key s, files (fst (p_read P key s)) = files s.
Hypothesis ex : forall key s, files (fst (p_exists P key s)) = files s.
Hypothesis wr : forall kc key b s k, k <> key -> files (fst (p_write P kc key b s)) k = files s k.
Hypothesis er : forall key s k, k <> key -> files (fst (p_erase P key s)) k = files s k.
Hypothesis rm : forall key s k, k <> key -> files (fst (p_remove P key s)) k = files s k.

Definition keeps {A} (a : act S A) : Prop := forall s, files (fst (a s)) = files s.
Definition frames (key : string) {A} (a : act S A) : Prop := forall s k, k <> key -> files (fst (a s)) k = files s k.

Lemma keeps_ret A (o : outcome A) : keeps (aret o).
Proof. intros s. reflexivity. Qed.
Lemma keeps_bind A B (a : act S A) (f : A -> act S B) : keeps a -> (forall x, keeps (f x)) -> keeps (abind a f).
Proof. intros H K s. unfold abind. specialize (H s). destruct (a s) as [s' [x|e|]]; cbn [fst] in *; auto. rewrite K. exact H. Qed.
Lemma keeps_frames key A (a : act S A) : keeps a -> frames key a.
Proof. intros H s k _. now rewrite H. Qed.
Lemma frames_ret key A (o : outcome A) : frames key (aret o).
Proof. apply keeps_frames, keeps_ret. Qed.
Lemma frames_bind key A B (a : act S A) (f : A -> act S B) : frames key a -> (forall x, frames key (f x)) -> frames key (abind a f).
Proof. intros H K s k N. unfold abind. specialize (H s k N). destruct (a s) as [s' [x|e|]]; cbn [fst] in *; auto. rewrite K; auto. Qed.
Lemma frames_bind_ret key A B (o : outcome A) (f : A -> act S B) : (forall x, o = Ok x -> frames key (f x)) -> frames key (abind (aret o) f).
Proof. intros K s k N. unfold abind, aret. destruct o; cbn [fst]; auto. now apply K. Qed.

Lemma keeps_prepare d off n c src buffer : keeps (g_prepare_chunk d off n c src (g_plain_existing P d c) buffer).
Proof using rd ex.
  unfold g_prepare_chunk. apply keeps_bind; [apply keeps_ret|intros r]. apply keeps_bind; [apply keeps_ret|intros cs].
  destruct (_ && _); [apply keeps_ret|]. apply keeps_bind; [|intros; apply keeps_ret]. unfold g_plain_existing.
  apply keeps_bind; [apply keeps_bind; [apply keeps_ret|intros h s; apply ex]|]. intros []; cbn [negb]; [|apply keeps_ret].
  apply keeps_bind; [|intros; apply keeps_ret]. unfold g_read_chunk. apply keeps_bind; [apply keeps_ret|intros h].
  apply keeps_bind; [apply keeps_ret|intros _]. apply keeps_bind; [intros s; apply rd|]. intros []; apply keeps_ret.
Qed.
Lemma frames_write_chunk d c data vl n : frames (chunk_key (d_key d) c) (g_write_chunk P d c data vl n).
Proof using wr er.
  unfold g_write_chunk. destruct (negb _); [apply frames_ret|]. apply frames_bind_ret. intros h E. apply handle_key in E. rewrite E.
  apply frames_bind_ret. intros _ _. apply frames_bind_ret. intros [b|] _; intros s k N; [now apply wr|now apply er].
Qed.
Lemma frames_remove_chunk d c : frames (chunk_key (d_key d) c) (g_remove_chunk P d c).
Proof using rm.
  unfold g_remove_chunk. apply frames_bind_ret. intros h E. apply handle_key in E. rewrite E. destruct (negb _); [apply frames_ret|].
  intros s k N. now apply rm.
Qed.
Lemma frames_write_unit d src off n buffer c : frames (chunk_key (d_key d) c) (g_write_unit P d src off n buffer c).
Proof using rd ex wr er.
  unfold g_write_unit. apply frames_bind; [apply keeps_frames, keeps_prepare|]. intros b. apply frames_bind; [apply frames_write_chunk|].
  intros _. apply frames_ret.
Qed.

Lemma keeps_blobs sd coord : keeps (g_read_shard_blobs P sd coord).
Proof using rd.
  unfold g_read_shard_blobs. apply keeps_bind; [apply keeps_ret|intros h]. apply keeps_bind; [intros s; apply rd|]. intros [b|]; [|apply keeps_ret].
  apply keeps_bind; [apply keeps_ret|]. intros []; apply keeps_ret.
Qed.
Lemma frames_write_blobs sd coord blobs : frames (chunk_key (d_key (sd_base sd)) coord) (g_write_shard_blobs P sd coord blobs).
Proof using wr er.
  unfold g_write_shard_blobs. destruct (negb _); [apply frames_ret|]. apply frames_bind_ret. intros h E. apply handle_key in E. rewrite E.
  destruct (all_slots_empty _); intros s k N; [now apply er|now apply wr].
Qed.
Lemma frames_inner sd ids coord blob : shard_id ids (sd_cps sd) = Ok coord ->
  frames (chunk_key (d_key (sd_base sd)) coord) (g_write_inner_blob P sd ids blob).
Proof using rd wr er.
  intros E. unfold g_write_inner_blob. apply frames_bind_ret. rewrite E. intros c [= <-]. apply frames_bind_ret. intros slot _.
  apply frames_bind; [apply keeps_frames, keeps_blobs|]. intros blobs. apply frames_bind_ret. intros b' _. apply frames_write_blobs.
Qed.
Lemma frames_shard_unit sd src off n buffer g : frames (chunk_key (d_key (sd_base sd)) (fst g)) (g_shard_write_unit P sd src off n buffer g).
Proof using rd wr er.
  unfold g_shard_write_unit. apply frames_bind; [apply keeps_frames, keeps_blobs|]. intros blobs. apply frames_bind_ret. intros r _.
  apply frames_bind; [apply frames_write_blobs|]. intros _. apply frames_ret.
Qed.

(** A loop over units. *)
Lemma fold_frames A B (f : B -> A -> act S B) (key : A -> string) l : (forall x b, In x l -> frames (key x) (f b x)) -> forall b s k, ~ In k (map key l) ->
  files (fst (afold f l b s)) k = files s k.
Proof.
  induction l as [|x l IH]; intros H b s k Hk; cbn [afold]; [reflexivity|]. unfold abind.
  pose proof (H x b (or_introl eq_refl) s k) as F. destruct (f b x s) as [s' [y|e|]]; cbn [fst] in *.
  2,3: apply F; intros ->; apply Hk; now left.
  rewrite IH; [apply F; intros ->; apply Hk; now left| |].
  - intros z c Hz. apply H. now right.
  - intros Hi. apply Hk. now right.
Qed.
End Frames.

(** ** Writes *)

Definition torn (key : string) (old new found : store) : Prop :=
  found key = old key \/ found key = new key \/
  exists file i, new key = Some file /\ found key = Some (firstn i file).

(** A call that changes at most one file; the disk does not lose anything silently. *)
Definition unit_call (key : string) {A} (a1 : act store A) (a2 : act disk A) : Prop := forall s, saves_all s ->
  (disk_files (fst (a2 s)) = fst (a1 (disk_files s)) /\ snd (a2 s) = snd (a1 (disk_files s)) /\ saves_all (fst (a2 s))) \/
  (exists e, disk_error e /\ snd (a2 s) = Throw e /\ (forall k, k <> key -> disk_files (fst (a2 s)) k = disk_files s k) /\
     torn key (disk_files s) (fst (a1 (disk_files s))) (disk_files (fst (a2 s)))).

(** Reads keep the promise of the disk. *)
Definition saving {A} (a : act disk A) : Prop := forall s, saves_all s -> saves_all (fst (a s)).
Lemma saving_ret A (o : outcome A) : saving (aret o).
Proof. intros s. auto. Qed.
Lemma saving_bind A B (a : act disk A) (f : A -> act disk B) : saving a -> (forall x, saving (f x)) -> saving (abind a f).
Proof. intros H K s Hs. unfold abind. specialize (H s Hs). destruct (a s) as [s' [x|e|]]; cbn [fst] in *; auto. now apply K. Qed.
Lemma saving_access A e (an : store -> A) : saving (access e an).
Proof. intros s Hs. unfold access. destruct (next_saves Hs) as [N _]. destruct (next_fate s) as [s' []]; exact N. Qed.
Lemma saving_read key : saving (disk_read key).
Proof.
  unfold disk_read. apply saving_bind; [apply saving_access|]. intros []; cbn [negb]; [|apply saving_ret].
  apply saving_bind; [|intros; apply saving_ret]. unfold read_file. repeat (apply saving_bind; [apply saving_access|intros _]). apply saving_access.
Qed.

Definition read_call {A} (a1 : act store A) (a2 : act disk A) : Prop :=
  saving a2 /\ forall st0, rel (still st0) disk_error (fun s => disk_files s = st0) a1 a2.

Lemma unit_bind key A B (a1 : act store A) a2 (f1 : A -> act store B) f2 :
  read_call a1 a2 -> (forall x, unit_call key (f1 x) (f2 x)) -> unit_call key (abind a1 f1) (abind a2 f2).
Proof.
  intros [Sv R] K s Hs. specialize (Sv s Hs). destruct (R (disk_files s) (disk_files s) s (conj eq_refl eq_refl)) as [[[E1 E2] E]|(e & De & E & E2)].
  - unfold abind. destruct (a1 (disk_files s)) as [t1 r1], (a2 s) as [t2 r2]. cbn [fst snd] in *. subst r2 t1. destruct r1 as [x|e|].
    + specialize (K x t2 Sv). rewrite E2 in K. exact K.
    + left. auto.
    + left. auto.
  - right. exists e. unfold abind at 1 2 4. destruct (a2 s) as [t2 r2]. cbn [fst snd] in *. subst r2. cbn [fst snd].
    split; [exact De|]. split; [reflexivity|]. rewrite E2. split; [reflexivity|]. left. reflexivity.
Qed.

Lemma unit_ret key A (o : outcome A) : unit_call key (aret o) (aret o).
Proof. intros s Hs. left. auto. Qed.
Lemma unit_bind_ret key A B (o : outcome A) (f1 : A -> act store B) f2 : (forall x, o = Ok x -> unit_call key (f1 x) (f2 x)) -> unit_call key (abind (aret o) f1) (abind (aret o) f2).
Proof. intros K s Hs. unfold abind, aret. destruct o as [x|e|]; [now apply K|left; auto|left; auto]. Qed.
Lemma unit_map key A B (f : A -> B) a1 a2 : unit_call key a1 a2 -> unit_call key (amap f a1) (amap f a2).
Proof.
  intros H s Hs. destruct (H s Hs) as [(X & Y & Z)|(e & De & E & X)]; unfold amap; cbn [fst snd].
  - left. rewrite Y. auto.
  - right. exists e. rewrite E. auto.
Qed.
Lemma unit_then key A B (a1 : act store A) a2 (x : A -> B) : unit_call key a1 a2 ->
  unit_call key (abind a1 (fun a => aret (Ok (x a)))) (abind a2 (fun a => aret (Ok (x a)))).
Proof.
  intros H s Hs. specialize (H s Hs). unfold abind, aret. destruct (a1 (disk_files s)) as [t1 r1], (a2 s) as [t2 r2]. cbn [fst snd] in H.
  destruct H as [(X & -> & Z)|(e & De & -> & X)].
  - left. destruct r1; cbn [fst snd]; auto.
  - right. exists e. destruct r1; cbn [fst snd]; auto.
Qed.

Lemma read_ret A (o : outcome A) : read_call (aret o) (aret o).
Proof. split; [apply saving_ret|intros st0; apply rel_ret]. Qed.
Lemma read_bind A B (a1 : act store A) a2 (f1 : A -> act store B) f2 : read_call a1 a2 -> (forall x, read_call (f1 x) (f2 x)) -> read_call (abind a1 f1) (abind a2 f2).
Proof. intros [X Y] K. split; [apply saving_bind; [exact X|intros; apply K]|]. intros st0. apply rel_bind; [apply Y|]. intros; apply K. Qed.
Lemma read_read key : read_call (p_read fs_policy key) (p_read disk_policy key).
Proof. split; [apply saving_read|intros; apply disk_read_rel]. Qed.
Lemma read_exists key : read_call (p_exists fs_policy key) (p_exists disk_policy key).
Proof. split; [apply saving_access|intros; apply disk_exists_rel]. Qed.

Lemma set_key_at st key v : set_key st key v key = v.
Proof. unfold set_key. now rewrite String.eqb_refl. Qed.
Lemma set_key_off st key v k : k <> key -> set_key st key v k = st k.
Proof. intros N. unfold set_key. destruct (String.eqb_spec k key); congruence. Qed.

Lemma unit_write_file key b : unit_call key (fun st => (set_key st key (Some b), Ok tt)) (write_file key b).
Proof.
  intros s Hs. unfold write_file, abind, access. pose proof (next_files s) as N0. destruct (next_saves Hs) as [H0 U0].
  destruct (next_fate s) as [s0 f0]. cbn [fst snd] in *.
  assert (X : unit_call key (fun st => (set_key st key (Some b), Ok tt)) (fun s => let '(s1, f) := next_fate s in
    match f with
    | Fails n => (put_file s1 key (Some (firstn n b)), Throw ERuntime)
    | _ => let '(s2, f2) := next_fate s1 in match f2 with Unsaved n => (put_file s2 key (Some (firstn n b)), Ok tt) | _ => (put_file s2 key (Some b), Ok tt) end
    end)).
  { clear. intros s Hs. pose proof (next_files s) as N0. destruct (next_saves Hs) as [H0 U0]. destruct (next_fate s) as [s0 f0]. cbn [fst snd] in *.
    pose proof (next_files s0) as N1. destruct (next_saves H0) as [H1 U1]. destruct (next_fate s0) as [s1 f1]. cbn [fst snd] in *.
    destruct f0 as [|n|n].
    - left. destruct f1 as [|m|m]; try (exfalso; now apply (U1 m)); cbn [fst snd put_file disk_files]; rewrite N1, N0; auto.
    - right. exists ERuntime. cbn [fst snd put_file disk_files]. rewrite N0. split; [left; reflexivity|]. split; [reflexivity|].
      split; [intros k Hk; now apply set_key_off|]. right. right. exists b, n. now rewrite !set_key_at.
    - exfalso. now apply (U0 n). }
  destruct f0 as [|n|n].
  - specialize (X s0 H0). rewrite N0 in X. exact X.
  - right. exists ERuntime. cbn [fst snd]. rewrite N0. repeat split; auto; unfold torn, disk_error; auto.
  - exfalso. now apply (U0 n).
Qed.
Lemma unit_write k key b : unit_call key (p_write fs_policy k key b) (p_write disk_policy k key b).
Proof.
  cbn [p_write fs_policy disk_policy]. unfold store_write, disk_write. destruct (k_zarr k && negb (String.eqb (k_delim k) "/")); cbn [andb].
  - destruct (slash_in key); [apply (unit_ret key (Throw ERuntime))|apply unit_write_file].
  - apply (@unit_bind key _ _ (fun st => (st, Ok tt)) _ (fun _ st => (set_key st key (Some b), Ok tt))); [|intros _; apply unit_write_file].
    split; [apply saving_access|]. intros st0. apply access_rel. unfold disk_error; auto.
Qed.
Lemma unit_remove key : unit_call key (p_remove fs_policy key) (p_remove disk_policy key).
Proof.
  intros s Hs. cbn [p_remove fs_policy disk_policy]. unfold disk_remove, store_erase. pose proof (next_files s) as N0. destruct (next_saves Hs) as [H0 U0].
  destruct (next_fate s) as [s0 f0]. cbn [fst snd] in *. destruct f0 as [|n|n]; [left|right|exfalso; now apply (U0 n)].
  - cbn [fst snd put_file disk_files]. now rewrite N0.
  - exists EFilesystem. cbn [fst snd]. rewrite N0. unfold disk_error, torn. auto 6.
Qed.
Lemma unit_erase key : unit_call key (p_erase fs_policy key) (p_erase disk_policy key).
Proof.
  cbn [p_erase fs_policy disk_policy]. unfold disk_erase.
  intros s Hs. pose proof (@unit_bind key _ _ (p_exists fs_policy key) (p_exists disk_policy key) (fun _ => store_erase key)
    (fun ex : bool => if ex then disk_remove key else fun s => (put_file s key None, Ok tt)) (read_exists key)) as X.
  apply X; [|exact Hs]. intros []; [apply unit_remove|]. intros t Ht. left. cbn. auto.
Qed.

Lemma unit_write_chunk d c data vl n : unit_call (chunk_key (d_key d) c) (g_write_chunk fs_policy d c data vl n) (g_write_chunk disk_policy d c data vl n).
Proof.
  unfold g_write_chunk. destruct (negb _); [apply unit_ret|]. apply unit_bind_ret. intros h E. apply handle_key in E. rewrite E.
  apply unit_bind_ret. intros _ _. apply unit_bind_ret. intros [b|] _; [apply unit_write|apply unit_erase].
Qed.
Lemma unit_remove_chunk d c : unit_call (chunk_key (d_key d) c) (g_remove_chunk fs_policy d c) (g_remove_chunk disk_policy d c).
Proof.
  unfold g_remove_chunk. apply unit_bind_ret. intros h E. apply handle_key in E. rewrite E. destruct (negb _); [apply unit_ret|apply unit_remove].
Qed.
Lemma read_prepare d off n c src buffer : read_call (g_prepare_chunk d off n c src (g_plain_existing fs_policy d c) buffer)
  (g_prepare_chunk d off n c src (g_plain_existing disk_policy d c) buffer).
Proof.
  unfold g_prepare_chunk. apply read_bind; [apply read_ret|intros r]. apply read_bind; [apply read_ret|intros cs].
  destruct (_ && _); [apply read_ret|]. apply read_bind; [|intros; apply read_ret]. unfold g_plain_existing.
  apply read_bind; [apply read_bind; [apply read_ret|intros h; apply read_exists]|]. intros []; cbn [negb]; [|apply read_ret].
  apply read_bind; [|intros; apply read_ret]. unfold g_read_chunk. apply read_bind; [apply read_ret|intros h].
  apply read_bind; [apply read_ret|intros _]. apply read_bind; [apply read_read|]. intros []; apply read_ret.
Qed.
Lemma unit_write_unit d src off n buffer c : unit_call (chunk_key (d_key d) c) (g_write_unit fs_policy d src off n buffer c) (g_write_unit disk_policy d src off n buffer c).
Proof. unfold g_write_unit. apply unit_bind; [apply read_prepare|]. intros b. apply unit_then. apply unit_write_chunk. Qed.

Lemma read_blobs sd coord : read_call (g_read_shard_blobs fs_policy sd coord) (g_read_shard_blobs disk_policy sd coord).
Proof.
  unfold g_read_shard_blobs. apply read_bind; [apply read_ret|intros h]. apply read_bind; [apply read_read|]. intros [b|]; [|apply read_ret].
  apply read_bind; [apply read_ret|]. intros []; apply read_ret.
Qed.
Lemma unit_write_blobs sd coord blobs : unit_call (chunk_key (d_key (sd_base sd)) coord) (g_write_shard_blobs fs_policy sd coord blobs) (g_write_shard_blobs disk_policy sd coord blobs).
Proof.
  unfold g_write_shard_blobs. destruct (negb _); [apply unit_ret|]. apply unit_bind_ret. intros h E. apply handle_key in E. rewrite E.
  destruct (all_slots_empty _); [apply unit_erase|apply unit_write].
Qed.
Lemma unit_inner sd ids coord blob : shard_id ids (sd_cps sd) = Ok coord ->
  unit_call (chunk_key (d_key (sd_base sd)) coord) (g_write_inner_blob fs_policy sd ids blob) (g_write_inner_blob disk_policy sd ids blob).
Proof.
  intros E. unfold g_write_inner_blob. apply unit_bind_ret. rewrite E. intros c [= <-]. apply unit_bind_ret. intros slot _.
  apply unit_bind; [apply read_blobs|]. intros blobs. apply unit_bind_ret. intros b' _. apply unit_write_blobs.
Qed.
Lemma unit_sh_write sd ids coord data vl : shard_id ids (sd_cps sd) = Ok coord ->
  unit_call (chunk_key (d_key (sd_base sd)) coord) (g_sh_write_chunk fs_policy sd ids data vl) (g_sh_write_chunk disk_policy sd ids data vl).
Proof.
  intros E. unfold g_sh_write_chunk. destruct (negb _); [apply unit_ret|]. apply unit_bind_ret. intros h _. apply unit_bind_ret. intros bl _.
  destruct (negb _); [apply unit_ret|]. destruct vl; [apply unit_ret|]. apply unit_bind_ret. intros b _. now apply unit_inner.
Qed.
Lemma unit_shard_unit sd src off n buffer g : unit_call (chunk_key (d_key (sd_base sd)) (fst g)) (g_shard_write_unit fs_policy sd src off n buffer g) (g_shard_write_unit disk_policy sd src off n buffer g).
Proof.
  unfold g_shard_write_unit. apply unit_bind; [apply read_blobs|]. intros blobs. apply unit_bind_ret. intros r _. apply unit_then. apply unit_write_blobs.
Qed.

(** *** Loops *)
Section Loop.
Variables (A B : Type) (f1 : B -> A -> act store B) (f2 : B -> A -> act disk B) (key : A -> string).

Lemma fold_units l : (forall x b, In x l -> unit_call (key x) (f1 b x) (f2 b x)) ->
  (forall x b, In x l -> frames (fun st => st) (key x) (f1 b x)) -> NoDup (map key l) -> forall b s, saves_all s ->
  (disk_files (fst (afold f2 l b s)) = fst (afold f1 l b (disk_files s)) /\ snd (afold f2 l b s) = snd (afold f1 l b (disk_files s))) \/
  (exists e, disk_error e /\ snd (afold f2 l b s) = Throw e /\
     interrupted (map key l) (disk_files s) (fst (afold f1 l b (disk_files s))) (disk_files (fst (afold f2 l b s)))).
Proof.
  induction l as [|x l IH]; intros U F ND b s Hs; [left; auto|]. cbn [map afold] in *. inversion ND as [|? ? NI ND']; subst.
  pose proof (U x b (or_introl eq_refl) s Hs) as U0. pose proof (F x b (or_introl eq_refl) (disk_files s)) as F0. cbn beta in F0.
  assert (F' : forall y b', In y l -> frames (fun st => st) (key y) (f1 b' y)) by (intros; apply F; now right).
  assert (LF : forall b' st, fst (afold f1 l b' st) (key x) = st (key x)) by (intros; apply (fold_frames (files := fun st => st) (f := f1) F'); exact NI).
  unfold abind. destruct (f1 b x (disk_files s)) as [t1 r1], (f2 b x s) as [t2 r2]. cbn [fst snd] in *.
  destruct U0 as [(E1 & E2 & Sv)|(e & De & -> & C1 & C2)].
  - subst r2 t1. destruct r1 as [b1|e|]; [|left; auto|left; auto].
    destruct (IH (fun y b' Hy => U y b' (or_intror Hy)) F' ND' b1 t2 Sv) as [[X Y]|(e & De & E & I)]; [left; auto|].
    right. exists e. split; [exact De|]. split; [exact E|].
    destruct I as (be & cu & af & Ek & L & I1 & I2 & I3 & I4).
    assert (SUB : forall k, In k be \/ In k cu \/ In k af -> k <> key x).
    { intros k Hk ->. apply NI. rewrite Ek. rewrite !in_app_iff. tauto. }
    exists (key x :: be), cu, af. split; [cbn; now rewrite Ek|]. split; [exact L|]. split; [|split; [|split]].
    * intros k [<-|Hk]; [|now apply I1]. rewrite LF. now apply I4.
    * intros k Hk. rewrite I2 by exact Hk. apply F0. apply SUB. tauto.
    * intros k Hk. destruct (I3 k Hk) as [X|X]; [|now right]. left. rewrite X. apply F0. apply SUB. tauto.
    * intros k Hk. rewrite I4; [apply F0; intros ->; apply Hk; now left|]. intros Hi. apply Hk. now right.
  - right. exists e. split; [exact De|]. split; [reflexivity|]. exists [], [key x], (map key l). split; [reflexivity|]. split; [cbn; lia|].
    split; [cbn; tauto|]. cbn [fst]. split; [intros k Hk; apply C1; intros ->; tauto|]. split; [|intros k Hk; apply C1; intros ->; apply Hk; now left].
    intros k [<-|[]]. destruct r1; cbn [fst]; try exact C2. rewrite LF. exact C2.
Qed.
End Loop.

Lemma torn_interrupted key old new found : (forall k, k <> key -> found k = old k) -> torn key old new found -> interrupted [key] old new found.
Proof.
  intros H T. exists [], [key], []. split; [reflexivity|]. split; [cbn; lia|]. split; [cbn; tauto|]. split; [cbn; tauto|].
  split; [intros k [<-|[]]; exact T|]. intros k Hk. apply H. intros ->. apply Hk. now left.
Qed.
