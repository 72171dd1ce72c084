(** Proofs about writes to an object store on several threads, after P_ParWrite and
    P_ParSharded. *)
From Verif Require Import M_Base M_Text M_Key M_Blocking M_View M_Bytes M_N5Header M_Format
  M_Mode M_Shard M_Dataset M_Sharded M_Access M_Pool M_Parallel M_Lock M_Clients M_S3Clients M_S3Parallel
  S_Array S_Grid S_Bytes S_Text S_Format S_Shard S_Dataset S_Sharded S_Access S_File S_Pool S_Parallel
  S_Lock S_Clients S_Readers S_S3Clients S_S3Parallel
  P_Base P_Blocking P_Roi P_View P_Bytes P_Key P_Format P_Shard P_Dataset P_Access P_Read P_History P_Sharded P_File P_Pool
  P_Foreach P_Parallel P_ParWrite P_ParSharded P_ParHistory.
Import List ListNotations.
Local Open Scope list_scope.
Local Open Scope N_scope.

Section PlainWrite.
Variable d : dataset.
Hypothesis ok : dataset_ok d.
Notation w := (t_width (d_type d)).
Notation s := (d_shape d).
Notation b := (d_chunks d).
Notation valid := (valid_chunk (d_shape d) (d_chunks d)).

Lemma s3_run_write_unit src off n buf c st st2 x : valid c -> (forall k, st2 k = st k) ->
  exists st2', run (s3_write_unit_code d src off n c buf) (st2, x) =
      ((st2', x), snd (write_unit d src off n buf c st)) /\
    (forall k, st2' k = fst (write_unit d src off n buf c st) k).
Proof.
  intros Hc HS. unfold s3_write_unit_code, write_unit, sbind, reading, pure. rewrite (handle_ok ok Hc). cbn [plet ch_key].
  unfold pread. cbn [run fst snd]. rewrite HS.
  assert (EX : prepare_chunk d off n c src (existing_from d c (st (chunk_key (d_key d) c)) (st (chunk_key (d_key d) c))) buf =
               prepare_chunk d off n c src (plain_existing d st c) buf).
  { apply prepare_ext. intros y. unfold existing_from, plain_existing, chunk_exists, read_chunk, only, store_read.
    rewrite (handle_ok ok Hc). reflexivity. }
  rewrite EX. clear EX. destruct (prepare_chunk d off n c src (plain_existing d st c) buf) as [buf'|e|]; cbn [plet run fst snd].
  2,3: exists st2; auto.
  unfold s3_write_chunk_code, write_chunk. destruct (can_write (d_mode d)); cbn [negb].
  2:{ cbn [run fst snd pure]. exists st2; auto. }
  unfold sbind, pure. rewrite (handle_ok ok Hc). cbn [plet].
  rewrite (check_chunk_ok ok (c := c)) by auto. cbn [andb plet ch_bounded ch_key].
  destruct (data_to_buffer _ _ _ _ _ _ _ _ _) as [[v|]|e|]; cbn [plet run fst snd].
  - rewrite (store_write_ok ok). unfold put_code, pset. cbn [run fst snd]. eexists. split; [reflexivity|]. now apply set_eq.
  - unfold pset. cbn [run fst snd store_erase]. eexists. split; [reflexivity|]. now apply set_eq.
  - exists st2; auto.
  - exists st2; auto.
Qed.

Lemma s3_run_write_fold src off n us : (forall c, In c us -> valid c) -> forall buf st st2 x, (forall k, st2 k = st k) ->
  exists st2', run (batch_prog (fun _ => s3_write_unit_code d src off n) 0 us buf) (st2, x) =
      ((st2', x), snd (foldS (write_unit d src off n) us buf st)) /\
    (forall k, st2' k = fst (foldS (write_unit d src off n) us buf st) k).
Proof.
  induction us as [|c us IH]; intros Hus buf st st2 x HS; cbn [batch_prog foldS].
  - exists st2. split; [reflexivity|exact HS].
  - rewrite run_bind. destruct (@s3_run_write_unit src off n buf c st st2 x (Hus c (or_introl eq_refl)) HS) as (st3 & -> & H3).
    unfold sbind. destruct (write_unit d src off n buf c st) as [st1 [buf1|e|]]; cbn [fst snd] in *.
    + destruct (IH (fun c' H => Hus c' (or_intror H)) buf1 st1 st3 x H3) as (st4 & E & H4). exists st4. split; auto.
    + exists st3. auto.
    + exists st3. auto.
Qed.

Lemma s3_conf_write_unit src off n c buf : valid c ->
  pconf (one_key (chunk_key (d_key d) c)) (fun _ => False) (s3_write_unit_code d src off n c buf).
Proof.
  intros Hc. unfold s3_write_unit_code. rewrite (handle_ok ok Hc). cbn [plet ch_key].
  apply conf_pread; [left; reflexivity|]. intros f1. apply conf_pread; [left; reflexivity|]. intros f2.
  apply conf_plet. intros buf' _. unfold s3_write_chunk_code. destruct (negb _); [constructor|].
  rewrite (handle_ok ok Hc). cbn [plet ch_key]. apply conf_plet. intros _ _. apply conf_plet. intros ob _.
  destruct ob as [v|].
  - unfold put_code. apply conf_pset; [reflexivity|constructor].
  - apply conf_pset; [reflexivity|constructor].
Qed.

Section Units.
Variables (src : source) (off n : shape) (st : store) (x : N -> cell) (reqs : list shape).
Hypothesis Hreg : region_ok d off n.
Hypothesis Hsrc : source_ok w n src.
Hypothesis Hold : forall c, overlaps s b off n c -> steady d (plain_existing d st c) c.
Hypothesis Hreqs : forall c, In c reqs -> overlaps s b off n c.
Hypothesis Hnd : NoDup reqs.
Notation unit_code := (fun (_ i : nat) => s3_write_unit_code d src off n (nth i reqs [])).
Notation b0 := (repeat (d_fill d) (N.to_nat (prodw b))).

Lemma s3_write_units_ok : tasks_ok pget (length reqs) (fun i tid => unit_code tid i) (any_buffer d)
    (fun i => one_key (chunk_key (d_key d) (nth i reqs []))) (fun _ => False) (st, x)
    (fun i => fst (run (unit_code 0%nat i b0) (st, x)))
    (fun i => ended (snd (run (unit_code 0%nat i b0) (st, x)))).
Proof.
  assert (HN : forall i, (i < length reqs)%nat -> overlaps s b off n (nth i reqs [])).
  { intros i Hi. apply Hreqs, nth_In, Hi. }
  split.
  - intros i j l Hi Hj Hij -> E. unfold one_key in E. injection E as E. apply (key_inj ok) in E.
    apply Hij. eapply (proj1 (NoDup_nth reqs [])); eauto.
  - intros i l Hi _ [].
  - intros i tid buf Hi. apply s3_conf_write_unit. eapply overlaps_valid; eauto.
  - intros i tid buf Hi Hb. set (c := nth i reqs []). pose proof (overlaps_valid (HN i Hi)) as Hc.
    destruct (@write_unit_steady d ok src off n c st Hreg Hsrc (HN i Hi) (Hold (HN i Hi))) as (st' & o & E & HO).
    destruct (@s3_run_write_unit src off n buf c st st x Hc (fun _ => eq_refl)) as (s1 & -> & H1).
    destruct (@s3_run_write_unit src off n b0 c st st x Hc (fun _ => eq_refl)) as (s2 & -> & H2).
    rewrite (E buf Hb) in *. rewrite (E b0 (fill_buffer ok)) in *. cbn [fst snd] in *. split.
    + intros l _. destruct l as [k|a]; cbn; [|reflexivity]. now rewrite H1, H2.
    + destruct o as [y|e|]; cbn; auto.
Qed.

End Units.

Lemma s3_par_write_steady threads est src off n st st1 r : region_ok d off n -> source_ok w n src ->
  (forall c, overlaps s b off n c -> steady d (plain_existing d st c) c) ->
  s3_write_run d threads est src off n st st1 r ->
  r = snd (write_request d src off n st) /\
  (r = Ok tt -> forall k, st1 k = fst (write_request d src off n st) k) /\
  (forall k, (forall c, overlaps s b off n c -> k <> chunk_key (d_key d) c) -> st1 k = st k) /\ r <> UB.
Proof.
  intros Hreg Hsrc Hfiles H. destruct (begin_request_ok ok Hreg) as (reqs & E & ND & _ & HI).
  destruct H as [reqs' m1 r E' H|e E']; [|congruence]. assert (reqs' = reqs) by congruence. subst reqs'. clear E'.
  pose proof (@s3_write_units_ok src off n st (fun _ => []) reqs Hreg Hsrc Hfiles (fun c => proj1 (HI c)) ND) as U.
  destruct (schedule_independent U (@left_over_buffer d) (@keys_dec d reqs) (fill_buffer ok) H) as (S1 & S2 & S3 & S4).
  pose proof (@run_units _ _ _ (s3_write_unit_code d src off n) reqs [] reqs 0%nat
    (repeat (d_fill d) (N.to_nat (prodw b))) (st, fun _ => []) eq_refl) as RU.
  unfold foreach_sequential in *. rewrite RU in S1, S2. clear RU.
  destruct (@s3_run_write_fold src off n reqs (fun c Hc => overlaps_valid (proj1 (HI c) Hc)) (repeat (d_fill d) (N.to_nat (prodw b)))
     st st (fun _ => []) (fun _ => eq_refl)) as (st2 & E2 & H2).
  rewrite E2 in S1, S2. cbn [fst snd] in S1, S2. clear E2.
  unfold write_request, write_plain, sbind, pure. rewrite E.
  destruct (foldS (write_unit d src off n) reqs (repeat (d_fill d) (N.to_nat (prodw b))) st) as [st' [y|e|]]; cbn [fst snd ended] in *.
  - split; [exact S1|]. split; [|split; [|exact S4]].
    + intros HO k. specialize (S2 HO (inl k)). cbn in S2. injection S2 as ->. apply H2.
    + intros k Hk. assert (X : pget m1 (inl k) = pget (st, fun _ => []) (inl k)).
      { apply S3. intros i Hi Ei. injection Ei as ->. eapply Hk; [|reflexivity]. apply HI, nth_In, Hi. }
      cbn in X. congruence.
  - split; [exact S1|]. split; [|split; [|exact S4]].
    + intros ->. discriminate.
    + intros k Hk. assert (X : pget m1 (inl k) = pget (st, fun _ => []) (inl k)).
      { apply S3. intros i Hi Ei. injection Ei as ->. eapply Hk; [|reflexivity]. apply HI, nth_In, Hi. }
      cbn in X. congruence.
  - congruence.
Qed.

Theorem s3_par_write threads est src off n st st1 r : region_ok d off n -> source_ok w n src ->
  (forall c file, overlaps s b off n c -> st (chunk_key (d_key d) c) = Some file -> overwritable d c file) ->
  s3_write_run d threads est src off n st st1 r ->
  r = snd (write_request d src off n st) /\
  (r = Ok tt -> forall k, st1 k = fst (write_request d src off n st) k) /\
  (forall k, (forall c, overlaps s b off n c -> k <> chunk_key (d_key d) c) -> st1 k = st k) /\ r <> UB.
Proof.
  intros Hreg Hsrc HF. apply s3_par_write_steady; auto. intros c Hc. apply (existing_steady ok); eauto using overlaps_valid.
Qed.

Lemma s3_write_exists_steady threads est src off n st : region_ok d off n -> source_ok w n src ->
  (forall c, overlaps s b off n c -> steady d (plain_existing d st c) c) ->
  exists st1 r, s3_write_run d threads est src off n st st1 r.
Proof.
  intros Hreg Hsrc Hold. destruct (begin_request_ok ok Hreg) as (reqs & E & ND & _ & HI).
  pose proof (@s3_write_units_ok src off n st (fun _ => []) reqs Hreg Hsrc Hold (fun c => proj1 (HI c)) ND) as U.
  destruct (foreach_run_exists U (@left_over_buffer d) (ex_intro _ [] (Forall_nil _)) threads est (fill_buffer ok)) as (m1 & r & R).
  exists (fst m1), r. econstructor; eauto.
Qed.
Lemma s3_write_exists threads est src off n st : region_ok d off n -> source_ok w n src ->
  (forall c file, overlaps s b off n c -> st (chunk_key (d_key d) c) = Some file -> overwritable d c file) ->
  exists st1 r, s3_write_run d threads est src off n st st1 r.
Proof.
  intros Hreg Hsrc Hfiles. apply s3_write_exists_steady; auto. intros c Hc. apply (existing_steady ok); eauto using overlaps_valid.
Qed.
End PlainWrite.

Section Sharded.
Variable sd : sharded.
Hypothesis sok : sharded_ok sd.
Notation d := (sd_base sd).
Notation w := (t_width (d_type (sd_base sd))).
Notation s := (d_shape (sd_base sd)).
Notation b := (d_chunks (sd_base sd)).
Notation cps := (sd_cps sd).
Notation valid := (valid_chunk (d_shape (sd_base sd)) (d_chunks (sd_base sd))).
Notation ok := (so_base sok).

Section WriteUnit.
Variables (src : source) (off n : shape) (k : shape) (cs : list shape).
Hypothesis Hreg : region_ok d off n.
Hypothesis Hsrc : source_ok w n src.
Hypothesis Hlen : length k = length b.
Hypothesis Hcs : forall c, In c cs -> overlaps s b off n c /\ shard_of cps c = k.
Hypothesis Hnd : NoDup cs.
Hypothesis Hw : can_write (d_mode d) = true.

Lemma s3_run_shard_write st st2 x buf : (forall key, st2 key = st key) ->
  exists st2', run (s3_shard_write_unit_code sd src off n (k, cs) buf) (st2, x) =
      ((st2', x), snd (shard_write_unit sd src off n buf (k, cs) st)) /\
    (forall key, st2' key = fst (shard_write_unit sd src off n buf (k, cs) st) key).
Proof.
  intros HS. unfold s3_shard_write_unit_code, shard_write_unit, sbind, reading, pure. cbn [fst snd].
  destruct (shard_handle_ok sok Hlen) as [bs E]. rewrite E. cbn [plet ch_key]. unfold pread. cbn [run fst snd]. rewrite HS.
  assert (ER : read_shard_blobs sd (only (st (chunk_key (d_key d) k))) k = read_shard_blobs sd st k).
  { unfold read_shard_blobs. rewrite E. reflexivity. }
  rewrite ER. clear ER. destruct (let! blobs := read_shard_blobs sd st k in _) as [[buf1 blobs1]|e|]; cbn [plet run fst snd].
  2,3: exists st2; auto.
  rewrite (blobs_written sok) by auto. unfold s3_write_blobs_code. rewrite Hw, E. cbn [negb plet ch_key fst snd].
  destruct (all_slots_empty blobs1).
  - unfold pset. cbn [run fst snd]. eexists. split; [reflexivity|]. now apply set_eq.
  - unfold put_code, pset. cbn [run fst snd]. eexists. split; [reflexivity|]. now apply set_eq.
Qed.

Lemma s3_conf_shard_write buf :
  pconf (one_key (chunk_key (d_key d) k)) (fun _ => False) (s3_shard_write_unit_code sd src off n (k, cs) buf).
Proof.
  unfold s3_shard_write_unit_code. cbn [fst snd]. destruct (shard_handle_ok sok Hlen) as [bs E]. rewrite E. cbn [plet ch_key].
  apply conf_pread; [left; reflexivity|]. intros f. apply conf_plet. intros r _. unfold s3_write_blobs_code.
  rewrite Hw, E. cbn [negb plet ch_key]. destruct (all_slots_empty _).
  - apply conf_pset; [reflexivity|constructor].
  - unfold put_code. apply conf_pset; [reflexivity|constructor].
Qed.
End WriteUnit.

(** ** Writing: the loop over shards *)
Section WriteUnits.
Variables (src : source) (off n : shape) (st : store) (x : N -> cell) (gs : list (shape * list shape)).
Hypothesis Hreg : region_ok d off n.
Hypothesis Hsrc : source_ok w n src.
Hypothesis Hw : can_write (d_mode d) = true.
Hypothesis Hcomp : forall c, overlaps s b off n c -> slot_steady sd st c.
Hypothesis Hgs : forall g, In g gs -> length (fst g) = length b /\ NoDup (snd g) /\
  forall c, In c (snd g) -> overlaps s b off n c /\ shard_of cps c = fst g.
Hypothesis Hnd : NoDup (map fst gs).
Notation g0 := (@nil N, @nil (list N)).
Notation unit_code := (fun (_ i : nat) => s3_shard_write_unit_code sd src off n (nth i gs g0)).
Notation b0 := (repeat (d_fill d) (N.to_nat (prodw b))).
Notation unit_key := (fun i => chunk_key (d_key d) (fst (nth i gs g0))).

Lemma s3_shard_writes_ok : tasks_ok pget (length gs) (fun i tid => unit_code tid i) (any_buffer d)
    (fun i => one_key (unit_key i)) (fun _ => False) (st, x)
    (fun i => fst (run (unit_code 0%nat i b0) (st, x)))
    (fun i => ended (snd (run (unit_code 0%nat i b0) (st, x)))).
Proof.
  split.
  - intros i j l Hi Hj Hij -> E. unfold one_key in E. injection E as E. apply (key_inj ok) in E.
    apply Hij. rewrite <- !(map_nth fst) in E. eapply (proj1 (NoDup_nth (map fst gs) (fst g0))); rewrite ?map_length; eauto.
  - intros i l Hi _ [].
  - intros i tid buf Hi. destruct (Hgs (nth_In gs g0 Hi)) as (LK & _ & HG). destruct (nth i gs g0) as [k cs]. cbn [fst snd] in *.
    now apply s3_conf_shard_write.
  - intros i tid buf Hi Hb. destruct (Hgs (nth_In gs g0 Hi)) as (LK & ND & HG). destruct (nth i gs g0) as [k cs]. cbn [fst snd] in *.
    destruct (@s3_run_shard_write src off n k cs LK Hw st st x buf (fun _ => eq_refl)) as (s1 & -> & H1).
    destruct (@s3_run_shard_write src off n k cs LK Hw st st x b0 (fun _ => eq_refl)) as (s2 & -> & H2).
    destruct (@shard_write_steady sd sok src off n k cs Hreg Hsrc LK HG ND Hw st (fun c H => Hcomp (proj1 (HG c H)))) as [(v & R)|(e & R)].
    + destruct (R buf Hb) as (f1 & I1 & E1). destruct (R b0 (fill_buffer ok)) as (f2 & I2 & E2). rewrite E1 in *. rewrite E2 in *.
      cbn [fst snd ended ends] in *. split; [|exact I1]. intros [key|a] _; cbn; [|reflexivity]. now rewrite H1, H2.
    + rewrite (R buf Hb) in *. rewrite (R b0 (fill_buffer ok)) in *. cbn [fst snd ended ends] in *. split; [|reflexivity].
      intros [key|a] _; cbn; [|reflexivity]. now rewrite H1, H2.
Qed.

End WriteUnits.

Lemma s3_run_shard_write_fold src off n gs : can_write (d_mode d) = true -> (forall g, In g gs -> length (fst g) = length b) ->
  forall buf st st2 x, (forall key, st2 key = st key) ->
  exists st2', run (batch_prog (fun _ => s3_shard_write_unit_code sd src off n) 0 gs buf) (st2, x) =
      ((st2', x), snd (foldS (shard_write_unit sd src off n) gs buf st)) /\
    (forall key, st2' key = fst (foldS (shard_write_unit sd src off n) gs buf st) key).
Proof.
  intros Hw. induction gs as [|[k cs] gs IH]; intros HG buf st st2 x HS; cbn [batch_prog foldS].
  - exists st2. split; [reflexivity|exact HS].
  - rewrite run_bind. destruct (@s3_run_shard_write src off n k cs (HG _ (or_introl eq_refl)) Hw st st2 x buf HS) as (st3 & -> & H3).
    unfold sbind. destruct (shard_write_unit sd src off n buf (k, cs) st) as [st1 [buf1|e|]]; cbn [fst snd] in *.
    + destruct (IH (fun c' H => HG c' (or_intror H)) buf1 st1 st3 x H3) as (st4 & E & H4). exists st4. split; auto.
    + exists st3. auto.
    + exists st3. auto.
Qed.

Lemma s3_sh_par_write_steady threads est src off n st st1 r : region_ok d off n -> source_ok w n src ->
  (forall c, overlaps s b off n c -> slot_steady sd st c) ->
  s3_sh_write_run sd threads est src off n st st1 r ->
  r = snd (sh_write_request sd src off n st) /\
  (r = Ok tt -> forall key, st1 key = fst (sh_write_request sd src off n st) key) /\
  (forall key, (forall c, overlaps s b off n c -> key <> shard_key sd c) -> st1 key = st key) /\ r <> UB.
Proof.
  intros Hreg Hsrc Hcomp H. destruct (request_groups sok Hreg) as (reqs & gs & E1 & E2 & E3 & HG & ND1 & _ & ND).
  unfold sh_write_request, write_sharded, sbind, pure. rewrite E1 in *. cbn [bind] in H.
  destruct (can_write (d_mode d)) eqn:Hw; cbn [negb] in *.
  2:{ destruct H as [gs' m1 r E' H|e E']; rewrite E1 in E'; cbn [bind] in E'; rewrite Hw in E'; cbn [negb] in E'; [discriminate|].
      injection E' as <-. cbn. split; [reflexivity|]. split; [discriminate|]. split; [auto|discriminate]. }
  rewrite E2, E3. cbn [fst snd].
  destruct H as [gs' m1 r E' H|e E']; rewrite E1 in E'; cbn [bind] in E'; rewrite Hw, E2 in E'; cbn [negb bind] in E'; rewrite E3 in E'; [|discriminate].
  injection E' as <-.
  assert (GF : forall g, In g gs -> length (fst g) = length b /\ NoDup (snd g) /\
    forall c, In c (snd g) -> overlaps s b off n c /\ shard_of cps c = fst g).
  { intros [k cs] Hg. destruct (HG k cs Hg) as [NE HO]. cbn [fst snd]. split; [|split; [|exact HO]].
    - destruct cs as [|c cs]; [congruence|]. destruct (HO c (or_introl eq_refl)) as [Ho <-].
      apply (shard_of_len sok), valid_len. eapply overlaps_valid; eauto.
    - eapply NoDup_concat_in; [exact ND1|]. apply in_map_iff. exists (k, cs). auto. }
  pose proof (@s3_shard_writes_ok src off n st (fun _ => []) gs Hreg Hsrc Hw Hcomp GF ND) as U.
  destruct (schedule_independent U (@left_over_buffer d) (@shard_keys_dec sd gs) (fill_buffer ok) H) as (S1 & S2 & S3 & S4).
  pose proof (@run_units _ _ _ (s3_shard_write_unit_code sd src off n) gs ([], []) gs 0%nat
    (repeat (d_fill d) (N.to_nat (prodw b))) (st, fun _ => []) eq_refl) as RU.
  unfold foreach_sequential in *. rewrite RU in S1, S2. clear RU.
  destruct (@s3_run_shard_write_fold src off n gs Hw (fun g Hg => proj1 (GF g Hg)) (repeat (d_fill d) (N.to_nat (prodw b)))
     st st (fun _ => []) (fun _ => eq_refl)) as (st2 & EF & H2).
  rewrite EF in S1, S2. cbn [fst snd] in S1, S2. clear EF.
  assert (REST : forall key, (forall c, overlaps s b off n c -> key <> shard_key sd c) -> fst m1 key = st key).
  { intros key Hk. assert (X : pget m1 (inl key) = pget (st, fun _ => []) (inl key)).
    { apply S3. intros i Hi Ei. injection Ei as ->. pose proof (nth_In gs ([], []) Hi) as Hin.
      destruct (nth i gs ([], [])) as [k cs]. destruct (HG k cs Hin) as [NE HO]. destruct cs as [|c cs]; [congruence|].
      destruct (HO c (or_introl eq_refl)) as [Ho Hs]. apply (Hk c Ho). unfold shard_key. now rewrite Hs. }
    cbn in X. congruence. }
  destruct (foldS (shard_write_unit sd src off n) gs (repeat (d_fill d) (N.to_nat (prodw b))) st) as [st' [y|e|]]; cbn [fst snd ended] in *.
  - split; [exact S1|]. split; [|split; [exact REST|exact S4]].
    intros HO key. specialize (S2 HO (inl key)). cbn in S2. injection S2 as ->. apply H2.
  - split; [exact S1|]. split; [|split; [exact REST|exact S4]]. intros ->. discriminate.
  - congruence.
Qed.
Theorem s3_sh_par_write threads est src off n st st1 r : region_ok d off n -> source_ok w n src ->
  (forall c, overlaps s b off n c -> complete_slot sd st c) ->
  s3_sh_write_run sd threads est src off n st st1 r ->
  r = snd (sh_write_request sd src off n st) /\
  (r = Ok tt -> forall key, st1 key = fst (sh_write_request sd src off n st) key) /\
  (forall key, (forall c, overlaps s b off n c -> key <> shard_key sd c) -> st1 key = st key) /\ r <> UB.
Proof. intros Hreg Hsrc HF. apply s3_sh_par_write_steady; auto. intros c Hc. apply (complete_steady sok); eauto using overlaps_valid. Qed.

Lemma s3_sh_write_exists_steady threads est src off n st : region_ok d off n -> source_ok w n src ->
  (forall c, overlaps s b off n c -> slot_steady sd st c) ->
  exists st1 r, s3_sh_write_run sd threads est src off n st st1 r.
Proof.
  intros Hreg Hsrc Hcomp. destruct (request_groups sok Hreg) as (reqs & gs & E1 & E2 & E3 & HG & ND1 & _ & ND).
  destruct (can_write (d_mode d)) eqn:Hw.
  2:{ exists st, (Throw EInvalidArgument). apply s3_sh_write_run_rejected. rewrite E1. cbn [bind]. rewrite Hw. reflexivity. }
  assert (GF : forall g, In g gs -> length (fst g) = length b /\ NoDup (snd g) /\
    forall c, In c (snd g) -> overlaps s b off n c /\ shard_of cps c = fst g).
  { intros [k cs] Hg. destruct (HG k cs Hg) as [NE HO]. cbn [fst snd]. split; [|split; [|exact HO]].
    - destruct cs as [|c cs]; [congruence|]. destruct (HO c (or_introl eq_refl)) as [Ho <-].
      apply (shard_of_len sok), valid_len. eapply overlaps_valid; eauto.
    - eapply NoDup_concat_in; [exact ND1|]. apply in_map_iff. exists (k, cs). auto. }
  pose proof (@s3_shard_writes_ok src off n st (fun _ => []) gs Hreg Hsrc Hw Hcomp GF ND) as U.
  destruct (foreach_run_exists U (@left_over_buffer d) (ex_intro _ [] (Forall_nil _)) threads est (fill_buffer ok)) as (m1 & r & R).
  exists (fst m1), r. econstructor; [|exact R]. rewrite E1; cbn [bind]. rewrite Hw, E2. cbn [negb bind]. exact E3.
Qed.
Lemma s3_sh_write_exists threads est src off n st : region_ok d off n -> source_ok w n src ->
  (forall c, overlaps s b off n c -> complete_slot sd st c) ->
  exists st1 r, s3_sh_write_run sd threads est src off n st st1 r.
Proof.
  intros Hreg Hsrc Hcomp. apply s3_sh_write_exists_steady; auto.
  intros c Hc. apply (complete_steady sok); eauto using overlaps_valid.
Qed.
End Sharded.
