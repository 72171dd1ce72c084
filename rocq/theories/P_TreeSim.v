(** The generic dataset code over two chunk stores that are related on some chunks. *)
From Verif Require Import M_Base M_Text M_Key M_Blocking M_View M_Bytes M_N5Header M_Format
  M_Mode M_Shard M_Dataset M_Sharded M_Access M_Store M_S3 S_Text S_S3 P_Base P_Key P_Dataset P_Store P_S3 P_S3Sim.
Set Implicit Arguments.
Local Notation length := List.length.

(** ** Positions of requested chunks *)
Lemma odo_length lo : forall hi pos p' c, length hi = length lo -> length pos = length lo -> odo_next lo hi pos = (p', c) -> length p' = length lo.
Proof.
  induction lo as [|l lo IH]; intros [|h hi] [|x pos] p' c Hh Hp; cbn [odo_next length] in *; try discriminate; [now intros [= <- <-]|].
  destruct (odo_next lo hi pos) as [q cr] eqn:E. apply IH in E; [|congruence|congruence].
  destruct cr; [destruct (_ <=? _)|]; intros [= <- <-]; cbn [length]; congruence.
Qed.
Lemma grid_length lo hi : length hi = length lo -> forall fuel pos l, length pos = length lo -> grid_loop fuel lo hi pos = Some l -> Forall (fun c => length c = length lo) l.
Proof.
  intros Hh. induction fuel as [|f IH]; intros pos l Hp; cbn [grid_loop]; [discriminate|].
  destruct (odo_next lo hi pos) as [q c] eqn:E. pose proof (@odo_length lo hi pos q c Hh Hp E) as Hq.
  destruct c; [intros [= <-]; auto|]. destruct (grid_loop f lo hi q) as [r|] eqn:G; [|discriminate]. intros [= <-]. constructor; [exact Hp|]. now apply (IH q).
Qed.
Lemma max_blocks_length b : forall off n, length off = length b -> length n = length b -> length (max_blocks b off n) = length b.
Proof. induction b as [|x b IH]; intros [|o off] [|y n] H1 H2; cbn [length max_blocks] in *; try discriminate; [reflexivity|]. f_equal. apply IH; congruence. Qed.

Lemma begin_lengths d off n l : length (d_chunks d) = length (d_shape d) -> begin_request d off n = Ok l -> Forall (fun c => length c = length (d_shape d)) l.
Proof.
  intros Hc. unfold begin_request. destruct (check_request _ _ _) as [[]|e|] eqn:E; [|discriminate|discriminate]. cbn [bind].
  unfold check_request in E. destruct (_ && _) eqn:L; [|discriminate]. apply andb_true_iff in L. destruct L as [L1 L2]. apply N.eqb_eq in L1, L2.
  unfold lenN in L1, L2. apply Nat2N.inj in L1, L2. destruct (d_blocking d) as [bl|e|]; [|discriminate|discriminate]. cbn [bind].
  unfold chunk_requests. set (f := grid_fuel _ _). unfold blocks_overlapping, make_grid.
  assert (X : length (elem_to_block (d_chunks d) off) = length (d_shape d)).
  { unfold elem_to_block. rewrite map2_length; lia. }
  destruct (elem_to_block (d_chunks d) off) as [|x r] eqn:EB; [intros [= <-]; constructor|]. rewrite <- EB in *. clear EB.
  destruct (grid_loop _ _ _ _) as [l'|] eqn:G; [|discriminate]. intros [= <-].
  rewrite <- X. refine (@grid_length _ _ _ f _ l' eq_refl G). rewrite max_blocks_length; lia.
Qed.

Lemma shard_id_length ids : forall cps c, shard_id ids cps = Ok c -> length c = length ids.
Proof.
  induction ids as [|i ids IH]; intros [|x cps] c; cbn [shard_id List.length] in *; try discriminate.
  - now intros [= <-].
  - now intros [= <-].
  - destruct (x =? 0); [discriminate|]. destruct (shard_id ids cps) as [r|e|] eqn:E; [|discriminate|discriminate]. cbn [bind]. intros [= <-].
    cbn [List.length]. f_equal. now apply (IH cps).
Qed.
Lemma group_insert_keys (Q : shape -> Prop) key c g : Q key -> Forall (fun x => Q (fst x)) g -> Forall (fun x => Q (fst x)) (group_insert key c g).
Proof.
  intros H F. induction F as [|[k cs] r Hk F IH]; cbn [group_insert]; [auto|]. destruct (shape_eqb key k); [auto|]. destruct (shape_ltb key k); auto.
Qed.
Lemma group_lengths n cps reqs g : Forall (fun c => length c = n) reqs -> group_chunks cps reqs = Ok g -> Forall (fun x => length (fst x) = n) g.
Proof.
  unfold group_chunks. enough (H : forall acc, Forall (fun x => length (fst x) = n) acc -> Forall (fun c => length c = n) reqs ->
    foldM (fun g c => let! k := shard_id c cps in Ok (group_insert k c g)) reqs acc = Ok g -> Forall (fun x => length (fst x) = n) g) by (intros F E; eapply H; eauto).
  induction reqs as [|c r IH]; intros acc A F; cbn [foldM]; [now intros [= <-]|]. inversion F; subst.
  destruct (shard_id c cps) as [k|e|] eqn:E; cbn [bind]; [|discriminate|discriminate]. apply IH; [|assumption].
  apply (@group_insert_keys (fun x => length x = length c)); [|assumption]. now apply shard_id_length in E.
Qed.

(** ** Two stores *)
Section Sim.
Variables (S1 S2 : Type) (R : S1 -> S2 -> Prop).
Notation rel := (rel R (fun _ => False) (fun _ => True)).
Variables (P1 : policy S1) (P2 : policy S2) (k : key_config) (n : nat).
Hypothesis rd : forall ids, length ids = n -> rel (p_read P1 (chunk_key k ids)) (p_read P2 (chunk_key k ids)).
Hypothesis wr : forall ids b, length ids = n -> rel (p_write P1 k (chunk_key k ids) b) (p_write P2 k (chunk_key k ids) b).
Hypothesis er : forall ids, length ids = n -> rel (p_erase P1 (chunk_key k ids)) (p_erase P2 (chunk_key k ids)).
Hypothesis rm : forall ids, length ids = n -> rel (p_remove P1 (chunk_key k ids)) (p_remove P2 (chunk_key k ids)).

Lemma rel_fold_in A B (f1 : B -> A -> act S1 B) f2 l : (forall b a, In a l -> rel (f1 b a) (f2 b a)) -> forall acc, rel (afold f1 l acc) (afold f2 l acc).
Proof.
  induction l as [|x l IH]; intros H acc; [apply rel_ret|]. cbn [afold]. apply rel_bind; [apply H; now left|]. intros y. apply IH.
  intros b a Ha. apply H. now right.
Qed.

Section Plain.
Variable d : dataset.
Hypothesis dk : d_key d = k.
Hypothesis dn : length (d_shape d) = n.
Hypothesis dc : length (d_chunks d) = n.

Lemma rel_write_chunk ids data vl vs : length ids = n -> rel (g_write_chunk P1 d ids data vl vs) (g_write_chunk P2 d ids data vl vs).
Proof using wr er dk.
  intros L. unfold g_write_chunk. destruct (negb _); [apply rel_ret|]. apply rel_bind_ret. intros h E. apply handle_key in E. rewrite dk in E.
  apply rel_bind_ret. intros _ _. apply rel_bind_ret. intros [b|] _; rewrite E; [rewrite dk; now apply wr|now apply er].
Qed.
Lemma rel_read_chunk ids out : length ids = n -> rel (g_read_chunk P1 d ids out) (g_read_chunk P2 d ids out).
Proof using rd dk.
  intros L. unfold g_read_chunk. apply rel_bind_ret. intros h E. apply handle_key in E. rewrite dk in E.
  apply rel_bind_ret. intros _ _. rewrite E. apply rel_bind; [now apply rd|]. intros [b|]; apply rel_ret.
Qed.
Lemma rel_read_raw ids : length ids = n -> rel (g_read_raw_chunk P1 d ids) (g_read_raw_chunk P2 d ids).
Proof using rd dk.
  intros L. unfold g_read_raw_chunk. apply rel_bind_ret. intros h E. apply handle_key in E. rewrite dk in E. rewrite E.
  apply rel_bind; [now apply rd|]. intros o. apply rel_ret.
Qed.
Lemma rel_remove_chunk ids : length ids = n -> rel (g_remove_chunk P1 d ids) (g_remove_chunk P2 d ids).
Proof using rm dk.
  intros L. unfold g_remove_chunk. apply rel_bind_ret. intros h E. apply handle_key in E. rewrite dk in E. destruct (negb _); [apply rel_ret|]. rewrite E. now apply rm.
Qed.

Hypothesis ex : forall ids, length ids = n -> rel (p_exists P1 (chunk_key k ids)) (p_exists P2 (chunk_key k ids)).
Lemma rel_chunk_exists ids : length ids = n -> rel (g_chunk_exists P1 d ids) (g_chunk_exists P2 d ids).
Proof using ex dk. intros L. unfold g_chunk_exists. apply rel_bind_ret. intros h E. apply handle_key in E. rewrite dk in E. rewrite E. now apply ex. Qed.

Lemma rel_read_unit ov off m st c : length c = n -> rel (g_read_unit P1 d ov off m st c) (g_read_unit P2 d ov off m st c).
Proof using ex rd dk.
  intros L. unfold g_read_unit. destruct st as [buffer out]. apply rel_bind_ret. intros r _. apply rel_bind; [now apply rel_chunk_exists|]. intros [].
  - cbn [negb]. apply rel_bind_ret. intros cs _. apply rel_bind; [now apply rel_read_raw|]. intros b. apply rel_bind_ret. intros [sz len] _.
    apply rel_bind_ret. intros b2 _. apply rel_bind_ret. intros b3 _. apply rel_bind_ret. intros o _. apply rel_ret.
  - cbn [negb]. apply rel_bind_ret. intros o _. apply rel_ret.
Qed.
Lemma requests_fit off m l : begin_request d off m = Ok l -> forall c, In c l -> length c = n.
Proof using dn dc. intros E c Hc. apply begin_lengths in E; [|congruence]. rewrite Forall_forall in E. rewrite <- dn. auto. Qed.
Lemma rel_read_subarray ov off out : rel (g_read_subarray P1 d ov off out) (g_read_subarray P2 d ov off out).
Proof using ex rd dk dn dc.
  unfold g_read_subarray. apply rel_bind_ret. intros reqs E. apply rel_bind; [|intros r; apply rel_ret]. apply rel_fold_in. intros b c Hc. apply rel_read_unit.
  now apply (requests_fit E).
Qed.
Lemma rel_write_unit src off m buffer c : length c = n -> rel (g_write_unit P1 d src off m buffer c) (g_write_unit P2 d src off m buffer c).
Proof using ex rd wr er dk.
  intros L. unfold g_write_unit. apply rel_bind.
  - unfold g_prepare_chunk. apply rel_bind_ret. intros r _. apply rel_bind_ret. intros cs _. destruct (r_complete r && _); [apply rel_ret|].
    apply rel_bind; [|intros e; apply rel_ret]. unfold g_plain_existing. apply rel_bind; [now apply rel_chunk_exists|]. intros [].
    + cbn [negb]. apply rel_bind; [now apply rel_read_chunk|]. intros x. apply rel_ret.
    + apply rel_ret.
  - intros b. apply rel_bind; [now apply rel_write_chunk|intros _; apply rel_ret].
Qed.
Lemma rel_write_request src off m : rel (g_write_request P1 d src off m) (g_write_request P2 d src off m).
Proof using ex rd wr er dk dn dc.
  unfold g_write_request. apply rel_bind_ret. intros reqs E. apply rel_bind; [|intros r; apply rel_ret]. apply rel_fold_in. intros b c Hc. apply rel_write_unit.
  now apply (requests_fit E).
Qed.

(** Positions of the call have [n] numbers. *)
Definition fits (c : ds_call) : Prop :=
  match c with
  | KWrite ids _ | KVarlenWrite ids _ _ | KRead ids _ | KRaw ids | KExists ids | KRemove ids => length ids = n
  | KWriteArray _ _ _ | KReadArray _ _ _ => True
  end.
Theorem sim_call c : fits c -> rel (call P1 d c) (call P2 d c).
Proof using ex rd wr er rm dk dn dc.
  intros F. destruct c; cbn [call fits] in *; apply rel_map; [now apply rel_write_chunk|now apply rel_write_chunk|now apply rel_read_chunk|now apply rel_read_raw|
    now apply rel_chunk_exists|now apply rel_remove_chunk|apply rel_write_request|apply rel_read_subarray].
Qed.
End Plain.

Section Shards.
Variable sd : sharded.
Hypothesis dk : d_key (sd_base sd) = k.
Hypothesis dn : length (d_shape (sd_base sd)) = n.
Hypothesis dc : length (d_chunks (sd_base sd)) = n.

Lemma rel_read_shard_blobs c : length c = n -> rel (g_read_shard_blobs P1 sd c) (g_read_shard_blobs P2 sd c).
Proof using rd dk.
  intros L. unfold g_read_shard_blobs. apply rel_bind_ret. intros h E. apply handle_key in E. rewrite dk in E. rewrite E.
  apply rel_bind; [now apply rd|]. intros [b|]; [|apply rel_ret]. apply rel_bind_ret. intros [es|] _; apply rel_ret.
Qed.
Lemma rel_read_shard_raw c : length c = n -> rel (g_read_shard_raw P1 sd c) (g_read_shard_raw P2 sd c).
Proof using rd dk.
  intros L. unfold g_read_shard_raw. apply rel_bind_ret. intros h E. apply handle_key in E. rewrite dk in E. rewrite E.
  apply rel_bind; [now apply rd|]. intros [b|]; [|apply rel_ret]. apply rel_bind_ret. intros [es|] _; apply rel_ret.
Qed.
Lemma rel_write_shard_blobs c blobs : length c = n -> rel (g_write_shard_blobs P1 sd c blobs) (g_write_shard_blobs P2 sd c blobs).
Proof using wr er dk.
  intros L. unfold g_write_shard_blobs. destruct (negb _); [apply rel_ret|]. apply rel_bind_ret. intros h E. apply handle_key in E. rewrite dk in E.
  destruct (all_slots_empty blobs); rewrite E; [now apply er|rewrite dk; now apply wr].
Qed.
Lemma rel_read_shard ids : length ids = n -> rel (g_read_shard P1 sd ids) (g_read_shard P2 sd ids).
Proof using rd dk.
  intros L. unfold g_read_shard. apply rel_bind_ret. intros c Ec. apply shard_id_length in Ec. apply rel_bind_ret. intros h E. apply handle_key in E. rewrite dk in E. rewrite E.
  apply rel_bind; [apply rd; congruence|]. intros [b|]; [|apply rel_ret]. apply rel_bind_ret. intros [es|] _; apply rel_ret.
Qed.
Lemma rel_write_inner ids blob : length ids = n -> rel (g_write_inner_blob P1 sd ids blob) (g_write_inner_blob P2 sd ids blob).
Proof using rd wr er dk.
  intros L. unfold g_write_inner_blob. apply rel_bind_ret. intros c Ec. apply shard_id_length in Ec. apply rel_bind_ret. intros slot _.
  apply rel_bind; [apply rel_read_shard_blobs; congruence|].
  intros blobs. apply rel_bind_ret. intros blobs' _. apply rel_write_shard_blobs. congruence.
Qed.
Lemma rel_sh_write_chunk ids data vl : length ids = n -> rel (g_sh_write_chunk P1 sd ids data vl) (g_sh_write_chunk P2 sd ids data vl).
Proof using rd wr er dk.
  intros L. unfold g_sh_write_chunk. destruct (negb _); [apply rel_ret|]. apply rel_bind_ret. intros h _. apply rel_bind_ret. intros bl _.
  destruct (negb _); [apply rel_ret|]. destruct vl; [apply rel_ret|]. apply rel_bind_ret. intros blob _. now apply rel_write_inner.
Qed.
Lemma rel_sh_read_raw ids : length ids = n -> rel (g_sh_read_raw_chunk P1 sd ids) (g_sh_read_raw_chunk P2 sd ids).
Proof using rd dk. intros L. unfold g_sh_read_raw_chunk. apply rel_bind; [now apply rel_read_shard|intros r; apply rel_ret]. Qed.
Lemma rel_sh_read_chunk ids out : length ids = n -> rel (g_sh_read_chunk P1 sd ids out) (g_sh_read_chunk P2 sd ids out).
Proof using rd dk. intros L. unfold g_sh_read_chunk. apply rel_bind; [now apply rel_sh_read_raw|]. intros b. apply rel_bind_ret. intros o _. apply rel_ret. Qed.
Lemma rel_sh_exists ids : length ids = n -> rel (g_sh_chunk_exists P1 sd ids) (g_sh_chunk_exists P2 sd ids).
Proof using rd dk. intros L. unfold g_sh_chunk_exists. apply rel_bind; [now apply rel_read_shard|intros r; apply rel_ret]. Qed.
Lemma groups_fit off m reqs cps gs : begin_request (sd_base sd) off m = Ok reqs -> group_chunks cps reqs = Ok gs -> forall g, In g gs -> length (fst g) = n.
Proof using dn dc.
  intros E G. apply begin_lengths in E; [|congruence]. apply (group_lengths E) in G. rewrite Forall_forall in G. intros g Hg. rewrite <- dn. auto.
Qed.
Lemma rel_sh_write_request src off m : rel (g_sh_write_request P1 sd src off m) (g_sh_write_request P2 sd src off m).
Proof using rd wr er dk dn dc.
  unfold g_sh_write_request. apply rel_bind_ret. intros reqs Er. destruct (negb _); [apply rel_ret|]. apply rel_bind_ret. intros cps _.
  apply rel_bind_ret. intros groups Eg. apply rel_bind; [|intros r; apply rel_ret]. apply rel_fold_in. intros b g Hg. pose proof (groups_fit Er Eg Hg) as L. unfold g_shard_write_unit.
  apply rel_bind; [now apply rel_read_shard_blobs|]. intros blobs. apply rel_bind_ret. intros r _. apply rel_bind; [now apply rel_write_shard_blobs|]. intros _. apply rel_ret.
Qed.
Lemma rel_sh_read_subarray ov off out : rel (g_sh_read_subarray P1 sd ov off out) (g_sh_read_subarray P2 sd ov off out).
Proof using rd dk dn dc.
  unfold g_sh_read_subarray. apply rel_bind_ret. intros reqs Er. apply rel_bind_ret. intros cps _.
  apply rel_bind_ret. intros groups Eg. apply rel_bind; [|intros r; apply rel_ret]. apply rel_fold_in. intros b g Hg. pose proof (groups_fit Er Eg Hg) as L. unfold g_shard_read_unit.
  apply rel_bind; [now apply rel_read_shard_raw|]. intros raw. apply rel_ret.
Qed.

Theorem sim_sh_call c : fits c -> rel (sh_call P1 sd c) (sh_call P2 sd c).
Proof using rd wr er rm dk dn dc.
  intros F. destruct c; cbn [sh_call fits] in *; apply rel_map; [now apply rel_sh_write_chunk|now apply rel_sh_write_chunk|now apply rel_sh_read_chunk|now apply rel_sh_read_raw|now apply rel_sh_exists|
    now apply rel_write_inner|apply rel_sh_write_request|apply rel_sh_read_subarray].
Qed.
End Shards.
End Sim.
