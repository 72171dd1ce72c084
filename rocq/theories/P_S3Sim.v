(** The generic dataset code over two related chunk stores. *)
From Verif Require Import M_Base M_Text M_Key M_Blocking M_View M_Bytes M_N5Header M_Format
  M_Mode M_Shard M_Dataset M_Sharded M_Access M_Store M_S3 S_Text S_S3 P_Base P_Key P_Dataset P_Store P_S3.
Set Implicit Arguments.

Section Rel.
Variables (S1 S2 : Type) (R : S1 -> S2 -> Prop) (esc : error -> Prop) (I : S2 -> Prop).

(** Both calls do the same, or the second one reports a failure. *)
Definition rel {A} (a1 : act S1 A) (a2 : act S2 A) : Prop := forall s1 s2, R s1 s2 ->
  (R (fst (a1 s1)) (fst (a2 s2)) /\ snd (a1 s1) = snd (a2 s2)) \/
  (exists e, esc e /\ snd (a2 s2) = Throw e /\ I (fst (a2 s2))).

Lemma rel_ret A (o : outcome A) : rel (aret o) (aret o).
Proof. intros s1 s2 H. left. auto. Qed.

Lemma rel_bind A B (a1 : act S1 A) a2 (f1 : A -> act S1 B) f2 : rel a1 a2 -> (forall x, rel (f1 x) (f2 x)) -> rel (abind a1 f1) (abind a2 f2).
Proof.
  intros H K s1 s2 HR. specialize (H s1 s2 HR). unfold abind. destruct (a1 s1) as [t1 r1], (a2 s2) as [t2 r2]. cbn [fst snd] in H.
  destruct H as [[HR' E]|(e & He & -> & HI)]; [|right; exists e; auto]. subst r2. destruct r1 as [x|e|]; [now apply K|left; auto|left; auto].
Qed.
Lemma rel_bind_ret A B (o : outcome A) (f1 : A -> act S1 B) f2 : (forall x, o = Ok x -> rel (f1 x) (f2 x)) -> rel (abind (aret o) f1) (abind (aret o) f2).
Proof. intros K s1 s2 HR. unfold abind, aret. destruct o as [x|e|]; [now apply K|left; auto|left; auto]. Qed.

Lemma rel_fold A B (f1 : B -> A -> act S1 B) f2 l : (forall b a, rel (f1 b a) (f2 b a)) -> forall acc, rel (afold f1 l acc) (afold f2 l acc).
Proof. intros H. induction l as [|x l IH]; intros acc; [apply rel_ret|]. cbn [afold]. apply rel_bind; auto. Qed.

Lemma rel_map A B (f : A -> B) a1 a2 : rel a1 a2 -> rel (amap f a1) (amap f a2).
Proof.
  intros H s1 s2 HR. destruct (H s1 s2 HR) as [[HR' E]|(e & He & E & HI)]; unfold amap; cbn [fst snd].
  - left. split; [exact HR'|]. now rewrite E.
  - right. exists e. rewrite E. auto.
Qed.

Variables (P1 : policy S1) (P2 : policy S2) (k : key_config).
Hypothesis rd : forall ids, rel (p_read P1 (chunk_key k ids)) (p_read P2 (chunk_key k ids)).
Hypothesis wr : forall ids b, rel (p_write P1 k (chunk_key k ids) b) (p_write P2 k (chunk_key k ids) b).
Hypothesis er : forall ids, rel (p_erase P1 (chunk_key k ids)) (p_erase P2 (chunk_key k ids)).
Hypothesis rm : forall ids, rel (p_remove P1 (chunk_key k ids)) (p_remove P2 (chunk_key k ids)).

Lemma handle_key d blk ids h : chunk_handle_of d blk ids = Ok h -> ch_key h = chunk_key (d_key d) ids.
Proof. unfold chunk_handle_of. destruct (_ <? _); [discriminate|]. destruct (_ <? _); [discriminate|]. now intros [= <-]. Qed.

Section Plain.
Variable d : dataset.
Hypothesis dk : d_key d = k.

Lemma rel_write_chunk ids data vl vs : rel (g_write_chunk P1 d ids data vl vs) (g_write_chunk P2 d ids data vl vs).
Proof using wr er dk.
  unfold g_write_chunk. destruct (negb _); [apply rel_ret|]. apply rel_bind_ret. intros h E. apply handle_key in E. rewrite dk in E.
  apply rel_bind_ret. intros _ _. apply rel_bind_ret. intros [b|] _; rewrite E; [rewrite dk; apply wr|apply er].
Qed.
Lemma rel_read_chunk ids out : rel (g_read_chunk P1 d ids out) (g_read_chunk P2 d ids out).
Proof using rd dk.
  unfold g_read_chunk. apply rel_bind_ret. intros h E. apply handle_key in E. rewrite dk in E.
  apply rel_bind_ret. intros _ _. rewrite E. apply rel_bind; [apply rd|]. intros [b|]; apply rel_ret.
Qed.
Lemma rel_read_raw ids : rel (g_read_raw_chunk P1 d ids) (g_read_raw_chunk P2 d ids).
Proof using rd dk.
  unfold g_read_raw_chunk. apply rel_bind_ret. intros h E. apply handle_key in E. rewrite dk in E. rewrite E.
  apply rel_bind; [apply rd|]. intros o. apply rel_ret.
Qed.
Lemma rel_remove_chunk ids : rel (g_remove_chunk P1 d ids) (g_remove_chunk P2 d ids).
Proof using rm dk.
  unfold g_remove_chunk. apply rel_bind_ret. intros h E. apply handle_key in E. rewrite dk in E. destruct (negb _); [apply rel_ret|]. rewrite E. apply rm.
Qed.

Hypothesis ex : forall ids, rel (p_exists P1 (chunk_key k ids)) (p_exists P2 (chunk_key k ids)).
Lemma rel_chunk_exists ids : rel (g_chunk_exists P1 d ids) (g_chunk_exists P2 d ids).
Proof using ex dk. unfold g_chunk_exists. apply rel_bind_ret. intros h E. apply handle_key in E. rewrite dk in E. rewrite E. apply ex. Qed.

Lemma rel_read_unit ov off n st c : rel (g_read_unit P1 d ov off n st c) (g_read_unit P2 d ov off n st c).
Proof using ex rd dk.
  unfold g_read_unit. destruct st as [buffer out]. apply rel_bind_ret. intros r _. apply rel_bind; [apply rel_chunk_exists|]. intros [].
  - cbn [negb]. apply rel_bind_ret. intros cs _. apply rel_bind; [apply rel_read_raw|]. intros b. apply rel_bind_ret. intros [sz len] _.
    apply rel_bind_ret. intros b2 _. apply rel_bind_ret. intros b3 _. apply rel_bind_ret. intros o _. apply rel_ret.
  - cbn [negb]. apply rel_bind_ret. intros o _. apply rel_ret.
Qed.
Lemma rel_read_subarray ov off out : rel (g_read_subarray P1 d ov off out) (g_read_subarray P2 d ov off out).
Proof using ex rd dk.
  unfold g_read_subarray. apply rel_bind_ret. intros reqs _. apply rel_bind; [|intros r; apply rel_ret]. apply rel_fold. intros. apply rel_read_unit.
Qed.
Lemma rel_write_unit src off n buffer c : rel (g_write_unit P1 d src off n buffer c) (g_write_unit P2 d src off n buffer c).
Proof using ex rd wr er dk.
  unfold g_write_unit. apply rel_bind.
  - unfold g_prepare_chunk. apply rel_bind_ret. intros r _. apply rel_bind_ret. intros cs _. destruct (r_complete r && _); [apply rel_ret|].
    apply rel_bind; [|intros e; apply rel_ret]. unfold g_plain_existing. apply rel_bind; [apply rel_chunk_exists|]. intros [].
    + cbn [negb]. apply rel_bind; [apply rel_read_chunk|]. intros x. apply rel_ret.
    + apply rel_ret.
  - intros b. apply rel_bind; [apply rel_write_chunk|intros _; apply rel_ret].
Qed.
Lemma rel_write_request src off n : rel (g_write_request P1 d src off n) (g_write_request P2 d src off n).
Proof using ex rd wr er dk.
  unfold g_write_request. apply rel_bind_ret. intros reqs _. apply rel_bind; [|intros r; apply rel_ret]. apply rel_fold. intros. apply rel_write_unit.
Qed.

Theorem rel_call c : rel (call P1 d c) (call P2 d c).
Proof using ex rd wr er rm dk.
  destruct c; cbn [call]; apply rel_map; [apply rel_write_chunk|apply rel_write_chunk|apply rel_read_chunk|apply rel_read_raw|apply rel_chunk_exists|
    apply rel_remove_chunk|apply rel_write_request|apply rel_read_subarray].
Qed.
End Plain.

Section Shards.
Variable sd : sharded.
Hypothesis dk : d_key (sd_base sd) = k.

Lemma rel_read_shard_blobs c : rel (g_read_shard_blobs P1 sd c) (g_read_shard_blobs P2 sd c).
Proof using rd dk.
  unfold g_read_shard_blobs. apply rel_bind_ret. intros h E. apply handle_key in E. rewrite dk in E. rewrite E.
  apply rel_bind; [apply rd|]. intros [b|]; [|apply rel_ret]. apply rel_bind_ret. intros [es|] _; apply rel_ret.
Qed.
Lemma rel_read_shard_raw c : rel (g_read_shard_raw P1 sd c) (g_read_shard_raw P2 sd c).
Proof using rd dk.
  unfold g_read_shard_raw. apply rel_bind_ret. intros h E. apply handle_key in E. rewrite dk in E. rewrite E.
  apply rel_bind; [apply rd|]. intros [b|]; [|apply rel_ret]. apply rel_bind_ret. intros [es|] _; apply rel_ret.
Qed.
Lemma rel_write_shard_blobs c blobs : rel (g_write_shard_blobs P1 sd c blobs) (g_write_shard_blobs P2 sd c blobs).
Proof using wr er dk.
  unfold g_write_shard_blobs. destruct (negb _); [apply rel_ret|]. apply rel_bind_ret. intros h E. apply handle_key in E. rewrite dk in E.
  destruct (all_slots_empty blobs); rewrite E; [apply er|rewrite dk; apply wr].
Qed.
Lemma rel_read_shard ids : rel (g_read_shard P1 sd ids) (g_read_shard P2 sd ids).
Proof using rd dk.
  unfold g_read_shard. apply rel_bind_ret. intros c _. apply rel_bind_ret. intros h E. apply handle_key in E. rewrite dk in E. rewrite E.
  apply rel_bind; [apply rd|]. intros [b|]; [|apply rel_ret]. apply rel_bind_ret. intros [es|] _; apply rel_ret.
Qed.
Lemma rel_write_inner ids blob : rel (g_write_inner_blob P1 sd ids blob) (g_write_inner_blob P2 sd ids blob).
Proof using rd wr er dk.
  unfold g_write_inner_blob. apply rel_bind_ret. intros c _. apply rel_bind_ret. intros slot _. apply rel_bind; [apply rel_read_shard_blobs|].
  intros blobs. apply rel_bind_ret. intros blobs' _. apply rel_write_shard_blobs.
Qed.
Lemma rel_sh_write_chunk ids data vl : rel (g_sh_write_chunk P1 sd ids data vl) (g_sh_write_chunk P2 sd ids data vl).
Proof using rd wr er dk.
  unfold g_sh_write_chunk. destruct (negb _); [apply rel_ret|]. apply rel_bind_ret. intros h _. apply rel_bind_ret. intros bl _.
  destruct (negb _); [apply rel_ret|]. destruct vl; [apply rel_ret|]. apply rel_bind_ret. intros blob _. apply rel_write_inner.
Qed.
Lemma rel_sh_read_raw ids : rel (g_sh_read_raw_chunk P1 sd ids) (g_sh_read_raw_chunk P2 sd ids).
Proof using rd dk. unfold g_sh_read_raw_chunk. apply rel_bind; [apply rel_read_shard|intros r; apply rel_ret]. Qed.
Lemma rel_sh_read_chunk ids out : rel (g_sh_read_chunk P1 sd ids out) (g_sh_read_chunk P2 sd ids out).
Proof using rd dk. unfold g_sh_read_chunk. apply rel_bind; [apply rel_sh_read_raw|]. intros b. apply rel_bind_ret. intros o _. apply rel_ret. Qed.
Lemma rel_sh_exists ids : rel (g_sh_chunk_exists P1 sd ids) (g_sh_chunk_exists P2 sd ids).
Proof using rd dk. unfold g_sh_chunk_exists. apply rel_bind; [apply rel_read_shard|intros r; apply rel_ret]. Qed.
Lemma rel_sh_write_request src off n : rel (g_sh_write_request P1 sd src off n) (g_sh_write_request P2 sd src off n).
Proof using rd wr er dk.
  unfold g_sh_write_request. apply rel_bind_ret. intros reqs _. destruct (negb _); [apply rel_ret|]. apply rel_bind_ret. intros cps _.
  apply rel_bind_ret. intros groups _. apply rel_bind; [|intros r; apply rel_ret]. apply rel_fold. intros b g. unfold g_shard_write_unit.
  apply rel_bind; [apply rel_read_shard_blobs|]. intros blobs. apply rel_bind_ret. intros r _. apply rel_bind; [apply rel_write_shard_blobs|]. intros _. apply rel_ret.
Qed.
Lemma rel_sh_read_subarray ov off out : rel (g_sh_read_subarray P1 sd ov off out) (g_sh_read_subarray P2 sd ov off out).
Proof using rd dk.
  unfold g_sh_read_subarray. apply rel_bind_ret. intros reqs _. apply rel_bind_ret. intros cps _.
  apply rel_bind_ret. intros groups _. apply rel_bind; [|intros r; apply rel_ret]. apply rel_fold. intros b g. unfold g_shard_read_unit.
  apply rel_bind; [apply rel_read_shard_raw|]. intros raw. apply rel_ret.
Qed.

Theorem rel_sh_call c : rel (sh_call P1 sd c) (sh_call P2 sd c).
Proof using rd wr er rm dk.
  destruct c; cbn [sh_call]; apply rel_map; [apply rel_sh_write_chunk|apply rel_sh_write_chunk|apply rel_sh_read_chunk|apply rel_sh_read_raw|apply rel_sh_exists|
    apply rel_write_inner|apply rel_sh_write_request|apply rel_sh_read_subarray].
Qed.
End Shards.
End Rel.

(** ** The file system calls are the generic ones *)

Lemma fs_call_eq d c st : call fs_policy d c st = fs_call d c st.
Proof.
  destruct c; cbn [call fs_call]; unfold amap; rewrite ?fs_write_chunk, ?fs_read_chunk, ?fs_read_raw, ?fs_chunk_exists, ?fs_remove_chunk,
    ?fs_write_request, ?fs_read_subarray; reflexivity.
Qed.
Lemma fs_sh_call_eq sd c st : sh_call fs_policy sd c st = fs_sh_call sd c st.
Proof.
  destruct c; cbn [sh_call fs_sh_call]; unfold amap; rewrite ?fs_sh_write_chunk, ?fs_sh_read_chunk, ?fs_sh_read_raw, ?fs_sh_chunk_exists, ?fs_sh_remove_chunk,
    ?fs_sh_write_request, ?fs_sh_read_subarray; reflexivity.
Qed.

(** ** File system against object store *)

Section Backends.
Variables (name : string) (s0 : s3).
Definition same_data (st : store) (s : s3) : Prop := reliable s /\ mirrors name st s /\ others_same name s0 s.

Lemma chunk_object_inj a b : chunk_object name a = chunk_object name b -> a = b.
Proof. unfold chunk_object. intros H. apply sapp_inj_l in H. now injection H. Qed.
Lemma object_eqb a b : String.eqb (chunk_object name a) (chunk_object name b) = String.eqb a b.
Proof. destruct (String.eqb_spec a b) as [->|N]; [apply String.eqb_refl|]. apply String.eqb_neq. intros H. apply N. now apply chunk_object_inj. Qed.

Notation rel0 := (rel same_data (fun _ => False) (fun _ => True)).

Lemma s3_read_rel key : rel0 (p_read fs_policy key) (p_read (s3_policy name) key).
Proof.
  intros st s (Rl & M & O). left. cbn [p_read fs_policy s3_policy fst snd]. unfold get_object, or_throw.
  destruct (reliable_request (fun l => l) (fun l => lookup l (chunk_object name key)) Rl) as (s' & E & Ob & Rl'). rewrite E. cbn [fst snd].
  split; [|unfold store_read; now rewrite M]. split; [exact Rl'|]. unfold mirrors, others_same in *. rewrite Ob. auto.
Qed.
Lemma s3_exists_rel key : rel0 (p_exists fs_policy key) (p_exists (s3_policy name) key).
Proof.
  intros st s (Rl & M & O). left. cbn [p_exists fs_policy s3_policy fst snd]. unfold object_exists.
  destruct (reliable_request (fun l => l) (fun l => lookup l (chunk_object name key)) Rl) as (s' & E & Ob & Rl'). rewrite E.
  pose proof (M key) as Mk. change (name ++ "/" ++ key)%string with (chunk_object name key) in Mk. rewrite Mk.
  assert (same_data st s'). { split; [exact Rl'|]. unfold mirrors, others_same in *. rewrite Ob. auto. }
  destruct (lookup (objects s) _); cbn [fst snd]; auto.
Qed.

Lemma set_same st s s' key v : same_data st s -> reliable s' ->
  (forall x, lookup (objects s') x = if String.eqb x (chunk_object name key) then v else lookup (objects s) x) -> same_data (set_key st key v) s'.
Proof.
  intros (Rl & M & O) Rl' L. split; [exact Rl'|]. split.
  - intros x. unfold set_key. rewrite L. change (name ++ "/" ++ x)%string with (chunk_object name x). rewrite object_eqb.
    destruct (String.eqb x key); [reflexivity|apply M].
  - intros x Hx. rewrite L. destruct (String.eqb_spec x (chunk_object name key)) as [->|N]; [|now apply O].
    exfalso. apply Hx. exists key. reflexivity.
Qed.

Lemma s3_delete_rel key : rel0 (store_erase key) (delete_object (chunk_object name key)).
Proof.
  intros st s H. left. unfold delete_object, or_throw, store_erase. cbn [fst snd].
  destruct (reliable_request (delete_keys [chunk_object name key]) (fun _ => tt) (proj1 H)) as (s' & E & Ob & Rl'). rewrite E. cbn [fst snd].
  split; [|reflexivity]. apply (set_same H Rl'). intros x. rewrite Ob, lookup_delete. cbn [existsb]. now rewrite orb_false_r.
Qed.
Lemma s3_write_rel k ids b : fs_separator (k_delim k) -> rel0 (p_write fs_policy k (chunk_key k ids) b) (p_write (s3_policy name) k (chunk_key k ids) b).
Proof.
  intros Sep st s H. left. cbn [p_write fs_policy s3_policy]. unfold put_object, or_throw, store_write.
  replace (k_zarr k && negb (String.eqb (k_delim k) "/") && slash_in (chunk_key k ids)) with false.
  2:{ destruct (k_zarr k) eqn:Z; [|reflexivity]. destruct (String.eqb_spec (k_delim k) "/") as [_|N]; [reflexivity|]. destruct Sep as [Sep|Sep]; [contradiction|].
      symmetry. cbn [andb negb]. apply slash_in_free. now apply chunk_key_slash_free. }
  cbn [fst snd]. destruct (reliable_request (put_key (chunk_object name (chunk_key k ids)) b) (fun _ => tt) (proj1 H)) as (s' & E & Ob & Rl'). rewrite E. cbn [fst snd].
  split; [|reflexivity]. apply (set_same H Rl'). intros x. now rewrite Ob, lookup_put.
Qed.

Lemma call_same d c : fs_separator (k_delim (d_key d)) -> rel0 (call fs_policy d c) (call (s3_policy name) d c).
Proof.
  intros Sep. apply (@rel_call _ _ same_data (fun _ => False) (fun _ => True) fs_policy (s3_policy name) (d_key d)); auto; intros ids; intros.
  - apply s3_read_rel.
  - now apply s3_write_rel.
  - apply s3_delete_rel.
  - apply s3_delete_rel.
  - apply s3_exists_rel.
Qed.
Lemma sh_call_same sd c : fs_separator (k_delim (d_key (sd_base sd))) -> rel0 (sh_call fs_policy sd c) (sh_call (s3_policy name) sd c).
Proof.
  intros Sep. apply (@rel_sh_call _ _ same_data (fun _ => False) (fun _ => True) fs_policy (s3_policy name) (d_key (sd_base sd))); auto; intros ids; intros.
  - apply s3_read_rel.
  - now apply s3_write_rel.
  - apply s3_delete_rel.
  - apply s3_delete_rel.
Qed.

Lemma history_same C (f : C -> act store answer) g : (forall c, rel0 (f c) (g c)) -> forall cs st s, same_data st s ->
  same_data (fst (history f cs st)) (fst (history g cs s)) /\ snd (history f cs st) = snd (history g cs s).
Proof.
  intros H. induction cs as [|c cs IH]; intros st s D; [auto|]. cbn [history]. destruct (H c st s D) as [[D' E]|(? & [] & _)].
  destruct (f c st) as [st1 a1], (g c s) as [s1 a2]. cbn [fst snd] in D', E. subst a2. destruct (IH _ _ D') as [X Y].
  destruct (history f cs st1), (history g cs s1). cbn [fst snd] in *. split; [exact X|]. now rewrite Y.
Qed.
End Backends.

Lemma history_ext S C A (f g : C -> act S A) : (forall c s, f c s = g c s) -> forall cs s, history f cs s = history g cs s.
Proof. intros H. induction cs as [|c cs IH]; intros s; [reflexivity|]. cbn [history]. rewrite H. destruct (g c s). now rewrite IH. Qed.

Theorem backends_same name d cs st s : fs_separator (k_delim (d_key d)) -> reliable s -> mirrors name st s ->
  let '(st', l) := history (fs_call d) cs st in
  let '(s', l') := history (call (s3_policy name) d) cs s in
  l' = l /\ mirrors name st' s' /\ others_same name s s'.
Proof.
  intros Sep Rl M. pose proof (@history_same name s ds_call (call fs_policy d) (call (s3_policy name) d)) as H.
  specialize (H (fun c => @call_same name s d c Sep) cs st s). rewrite (@history_ext _ _ _ (call fs_policy d) (fs_call d) (fs_call_eq d)) in H.
  destruct H as [(_ & X & Y) E]; [split; [exact Rl|]; split; [exact M|intros x _; reflexivity]|].
  destruct (history (fs_call d) cs st), (history (call (s3_policy name) d) cs s). cbn [fst snd] in *. auto.
Qed.
Theorem backends_same_sharded name sd cs st s : fs_separator (k_delim (d_key (sd_base sd))) -> reliable s -> mirrors name st s ->
  let '(st', l) := history (fs_sh_call sd) cs st in
  let '(s', l') := history (sh_call (s3_policy name) sd) cs s in
  l' = l /\ mirrors name st' s' /\ others_same name s s'.
Proof.
  intros Sep Rl M. pose proof (@history_same name s ds_call (sh_call fs_policy sd) (sh_call (s3_policy name) sd)) as H.
  specialize (H (fun c => @sh_call_same name s sd c Sep) cs st s). rewrite (@history_ext _ _ _ (sh_call fs_policy sd) (fs_sh_call sd) (fs_sh_call_eq sd)) in H.
  destruct H as [(_ & X & Y) E]; [split; [exact Rl|]; split; [exact M|intros x _; reflexivity]|].
  destruct (history (fs_sh_call sd) cs st), (history (sh_call (s3_policy name) sd) cs s). cbn [fst snd] in *. auto.
Qed.
