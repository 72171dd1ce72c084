(** Writes to an object store on several threads that are stopped. *)
From Verif Require Import M_Base M_Text M_Key M_Blocking M_View M_Bytes M_N5Header M_Format
  M_Mode M_Shard M_Dataset M_Sharded M_Access M_Pool M_Parallel M_Lock M_Clients M_S3Clients M_RemoveCrash M_S3Parallel
  S_Array S_Grid S_Bytes S_Text S_Format S_Shard S_Dataset S_Sharded S_Access S_File S_Pool S_Parallel
  S_Lock S_Clients S_Readers S_S3Clients S_S3Parallel
  P_Base P_Blocking P_Roi P_View P_Bytes P_Key P_Format P_Shard P_Dataset P_Access P_Read P_History P_Sharded P_File P_Pool
  P_Foreach P_Parallel P_ParWrite P_ParSharded P_ParHistory P_Lock P_Clients P_Clients2 P_Readers P_Readers2 P_Readers3 P_S3Clients
  P_S3Takeover P_Crash P_ParCrash P_S3Parallel P_S3Parallel2.
Import List ListNotations.
Local Open Scope list_scope.

Lemma goes_halted p m q m' : goes p m q m' -> halted p m m'.
Proof. induction 1 as [|f m p' m' H IH]; [apply halted_now|]. now apply halted_later. Qed.

Lemma puts_loop A (key : A -> string) (f : A -> list cell -> code) tid us :
  (forall u b, In u us -> puts (key u) (f u b)) -> NoDup (map key us) ->
  forall b m m', halted (batch_prog (fun _ => f) tid us b) m m' -> forall k,
    (~ In k (map key us) -> fst m' k = fst m k) /\
    (fst m' k = fst m k \/ fst m' k = fst (fst (run (batch_prog (fun _ => f) tid us b) m)) k).
Proof.
  induction us as [|u us IH]; intros Hu ND b m m' H k; cbn [batch_prog] in H.
  - inversion H; subst. auto.
  - cbn [map] in *. inversion ND as [|? ? N1 N2]; subst.
    assert (T := Hu u b (or_introl eq_refl)).
    assert (IH' := IH (fun u' b' Hi => Hu u' b' (or_intror Hi)) N2). clear IH.
    cbn [batch_prog]. rewrite run_bind. destruct (halted_bind H) as [H1|(m1 & b1 & E & H1)].
    + destruct (T _ _ H1) as [F V]. split.
      { intros Hn. apply F. intros ->. apply Hn. now left. }
      destruct (string_dec k (key u)) as [->|Hk]; [|left; now apply F].
      destruct V as [V|V]; [now left|right].
      rewrite V. destruct (run (f u b) m) as [m1 [b1|e|]] eqn:E; cbn [fst]; [|reflexivity|reflexivity].
      destruct (IH' b1 m1 _ (halted_end _ m1) (key u)) as [F2 _]. symmetry. now apply F2.
    + rewrite E. destruct (T _ _ (halted_end _ m)) as [F V]. rewrite E in F, V. cbn [fst] in F, V.
      destruct (IH' b1 m1 m' H1 k) as [F2 V2]. split.
      { intros Hn. rewrite F2 by (intros Hi; apply Hn; now right). apply F. intros ->. apply Hn. now left. }
      destruct (string_dec k (key u)) as [->|Hk].
      * right. rewrite (F2 N1). destruct (IH' b1 m1 _ (halted_end _ m1) (key u)) as [F3 _]. symmetry. now apply F3.
      * rewrite <- (F k Hk). exact V2.
Qed.


(** ** Loops over units that each put one object *)
Section Units.
Variables (g : nat -> list cell -> code) (junk I : list cell -> Prop) (cnt : nat) (key : nat -> string).
Variables (m0 : pmem) (fin : nat -> pmem) (res : nat -> outcome unit).
Notation f := (fun _ i : nat => g i).
Hypothesis uok : tasks_ok pget cnt (fun i tid => f tid i) I (fun i => one_key (key i)) (fun _ => False) m0 fin res.
Hypothesis junk_ok : forall b, junk b -> I b.
Hypothesis one : forall i buf, (i < cnt)%nat -> puts (key i) (g i buf).
Hypothesis all_ok : forall i, (i < cnt)%nat -> res i = Ok tt.

Lemma none_fails l : (forall i, In i l -> (i < cnt)%nat) -> first_error (map res l) = None.
Proof.
  induction l as [|i l IH]; intros Hl; [reflexivity|]. cbn. rewrite all_ok by (apply Hl; now left). apply IH. intros j Hj. apply Hl. now right.
Qed.

Lemma s3_batch_halted tid l b x : (forall i, In i l -> (i < cnt)%nat) -> NoDup l -> I b -> halted (batch_prog f tid l b) m0 x ->
  (forall k, ~ In k (map key l) -> fst x k = fst m0 k) /\
  (forall i, In i l -> fst x (key i) = fst m0 (key i) \/ fst x (key i) = fst (fin i) (key i)).
Proof.
  intros L ND HI HC. change (fun _ i => g i) with (fun _ : nat => g) in HC.
  pose proof (@puts_loop _ key g tid l (fun i buf Hi => @one i buf (L i Hi)) (units_keys uok L ND) b m0 x HC) as X.
  split; [intros k Hk; now apply X|]. intros i Hi. destruct (X (key i)) as [_ [E|E]]; [now left|right]. rewrite E.
  destruct (batch_run uok ND L tid HI (fun i _ => @agree_refl _ _ _ pget _ m0)) as (B1 & _ & _).
  rewrite started_all in B1; [|now apply none_fails|intros j Hj; rewrite all_ok; [discriminate|auto]].
  pose proof (B1 i Hi (inl (key i)) eq_refl) as Y. cbn [pget] in Y. injection Y as Y. exact Y.
Qed.

Theorem s3_loop_halted threads est b0 m' : I b0 -> foreach_halted threads est cnt f junk b0 m0 m' ->
  (forall k, (forall i, (i < cnt)%nat -> k <> key i) -> fst m' k = fst m0 k) /\
  (forall i, (i < cnt)%nat -> fst m' (key i) = fst m0 (key i) \/ fst m' (key i) = fst (fin i) (key i)).
Proof.
  intros HI [x Ht HC|p c Ht Hr].
  - unfold foreach_sequential in HC. assert (L : forall i, In i (seq 0 cnt) -> (i < cnt)%nat) by (intros i Hi; apply in_seq in Hi; lia).
    destruct (s3_batch_halted L (seq_NoDup cnt 0) HI HC) as [X1 X2]. split.
    + intros k Hk. apply X1. intros H. apply in_map_iff in H as (i & <- & Hi). exact (Hk i (L i Hi) eq_refl).
    + intros i Hi. apply X2. apply in_seq. lia.
  - set (bss := batches cnt (chunked_work est) (seq 0 cnt)) in *.
    assert (C : concat bss = seq 0 cnt).
    { apply batches_concat; [apply chunked_work_pos|]. now rewrite seq_length. }
    pose proof (batches_ok uok C HI) as bok. destruct (bss_parts C) as [P1 P2].
    assert (n_pos : (0 < N.to_nat threads)%nat) by lia.
    pose proof (Forall_forall_repeat (N.to_nat threads) HI) as HB. pose proof (repeat_length b0 (N.to_nat threads)) as HN.
    assert (D : forall k l, batch_F (fun i => one_key (key i)) (nth k bss []) l \/ ~ batch_F (fun i => one_key (key i)) (nth k bss []) l).
    { intros k [s|a]; [|right; intros (i & _ & E); discriminate E]. destruct (in_dec string_dec s (map key (nth k bss []))) as [H|H].
      - left. apply in_map_iff in H as (i & <- & Hi). exists i. split; [exact Hi|reflexivity].
      - right. intros (i & Hi & E). injection E as ->. apply H. now apply in_map. }
    pose proof (alone_reach bok junk_ok n_pos D HB HN Hr) as A.
    destruct (P_Pool.inv_reach bok junk_ok n_pos HB HN Hr) as (P & Hm & _ & _). cbn [fst snd] in *.
    split.
    + intros k Hk. assert (E : pget (p_mem p) (inl k) = pget m0 (inl k)).
      { apply (mo_rest Hm). intros j Hj (i & Hi & E). injection E as ->. apply (Hk i); [|reflexivity]. eapply (batch_unit C); eauto. }
      cbn in E. congruence.
    + intros i Hi. assert (HBi : In i (concat bss)) by (rewrite C; apply in_seq; lia).
      apply in_concat in HBi as (bs & Hb & Hib). apply (In_nth _ _ []) in Hb as (k & Lk & <-).
      assert (HF : batch_F (fun i => one_key (key i)) (nth k bss []) (inl (key i))) by (exists i; split; [exact Hib|reflexivity]).
      destruct (in_dec Nat.eq_dec k (map fst (p_log p))) as [Hlog|Hlog].
      * apply in_map_iff in Hlog as ([k' tid] & E & Hlog). cbn in E. subst k'.
        pose proof (log_lt P Hlog) as LL. destruct (nth_error (p_futures p) k) as [[o|]|] eqn:EF.
        -- right. destruct (mo_done Hm EF) as [_ AG]. specialize (AG _ HF). cbn in AG. injection AG as AG. rewrite AG.
           destruct (batch_effect uok C HI Lk) as [E1 _].
           assert (HS : In i (started res (nth k bss []))).
           { rewrite started_all; [exact Hib|apply none_fails; intros j Hj; eapply (batch_unit C); eauto|].
             intros j Hj. rewrite all_ok; [discriminate|]. eapply (batch_unit C); eauto. }
           pose proof (E1 i HS (inl (key i)) eq_refl) as E. cbn in E. congruence.
        -- destruct (po_pending P EF) as [Hq|(t & q & Hq)]; [exfalso; exact (log_queue P Hlog Hq)|].
           destruct (A _ _ _ Hq) as (b & mb & B1 & B2 & B3). apply goes_halted in B2.
           destruct (s3_batch_halted (@batch_unit _ _ C k) (P1 k) B1 B2) as [_ X2].
           specialize (B3 _ (or_introl HF)). cbn in B3. injection B3 as B3. rewrite <- B3. now apply X2.
        -- exfalso. apply nth_error_None in EF. lia.
      * left. assert (AG := mo_fresh Hm Lk). specialize (AG (fun tid Hin => Hlog (in_map fst _ _ Hin)) _ HF). cbn in AG. congruence.
Qed.
End Units.

Section Plain.
Local Open Scope N_scope.
Variable d : dataset.
Hypothesis ok : dataset_ok d.
Notation w := (t_width (d_type d)).
Notation s := (d_shape d).
Notation b := (d_chunks d).
Notation valid := (valid_chunk (d_shape d) (d_chunks d)).
Notation key := (chunk_key (d_key d)).

Theorem s3_halted_objects threads est src off n st st' : region_ok d off n -> source_ok w n src ->
  (forall c, overlaps s b off n c -> steady d (plain_existing d st c) c) ->
  snd (write_request d src off n st) = Ok tt ->
  s3_write_halted d threads est src off n st st' ->
  forall k, st' k = st k \/
    (st' k = fst (write_request d src off n st) k /\ exists c, overlaps s b off n c /\ k = key c).
Proof.
  intros Hr Hsrc Hold HW HC. destruct (begin_request_sorted ok Hr) as (l & E & ND & _ & HI & SO).
  inversion HC as [reqs m' E' C]; subst. rewrite E in E'. injection E' as <-.
  pose proof (@s3_write_units_ok d ok src off n st (fun _ => []) l Hr Hsrc Hold (fun c => proj1 (HI c)) ND) as U.
  assert (V : forall c, In c l -> valid c) by (intros c Hc; eapply overlaps_valid, HI, Hc).
  pose proof (@run_units _ _ _ (s3_write_unit_code d src off n) l [] l 0%nat
    (repeat (d_fill d) (N.to_nat (prodw b))) (st, fun _ => []) Logic.eq_refl) as RU.
  destruct (@s3_run_write_fold d ok src off n l V (repeat (d_fill d) (N.to_nat (prodw b)))
     st st (fun _ => []) (fun _ => Logic.eq_refl)) as (st2 & E2 & H2).
  pose proof (seq_units U (@left_over_buffer d) (fill_buffer ok)) as SU. unfold foreach_sequential in SU.
  rewrite RU, E2 in SU. cbn [fst snd] in SU.
  unfold write_request, write_plain, sbind, pure in *. rewrite E in *.
  destruct (foldS (write_unit d src off n) l (repeat (d_fill d) (N.to_nat (prodw b))) st) as [st3 [y|e|]]; cbn [fst snd ended] in *; try discriminate.
  destruct (SU Logic.eq_refl) as [RO FI].
  destruct (s3_loop_halted (key := fun i => key (nth i l [])) U (@left_over_buffer d)
    (fun i buf Hi => @puts_unit d ok src off n (nth i l []) buf (V _ (nth_In l [] Hi))) RO (fill_buffer ok) C) as [FR C3].
  cbn [fst] in *.
  assert (NEW : forall i, (i < length l)%nat -> fst (fst (run (s3_write_unit_code d src off n (nth i l []) (repeat (d_fill d) (N.to_nat (prodw b)))) (st, fun _ : N => []))) (key (nth i l [])) = st3 (key (nth i l []))).
  { intros i Hi. pose proof (FI i Hi (inl (key (nth i l []))) Logic.eq_refl) as X. cbn [pget fst] in X. injection X as X. now rewrite <- X. }
  intros k. destruct (in_dec string_dec k (map key l)) as [Hk|Hk].
  - apply in_map_iff in Hk as (c & <- & Hc). pose proof (proj1 (HI c) Hc) as Ho. apply (In_nth _ _ []) in Hc as (i & Hi & <-).
    destruct (C3 i Hi) as [X|X]; [now left|right]. split; [|eauto]. rewrite X. now apply NEW.
  - left. apply FR. intros i Hi ->. apply Hk. now apply in_map, nth_In.
Qed.
End Plain.

Section Sharded.
Local Open Scope N_scope.
Variable sd : sharded.
Hypothesis sok : sharded_ok sd.
Notation d := (sd_base sd).
Notation w := (t_width (d_type (sd_base sd))).
Notation s := (d_shape (sd_base sd)).
Notation b := (d_chunks (sd_base sd)).
Notation cps := (sd_cps sd).
Notation ok := (so_base sok).
Notation valid := (valid_chunk (d_shape (sd_base sd)) (d_chunks (sd_base sd))).
Notation key := (chunk_key (d_key (sd_base sd))).

Theorem s3_halted_shards threads est src off n st st' : region_ok d off n -> source_ok w n src ->
  (forall c, overlaps s b off n c -> slot_steady sd st c) ->
  snd (sh_write_request sd src off n st) = Ok tt ->
  s3_sh_write_halted sd threads est src off n st st' ->
  forall k, st' k = st k \/
    (st' k = fst (sh_write_request sd src off n st) k /\ exists c, overlaps s b off n c /\ k = shard_key sd c).
Proof.
  intros Hr Hsrc Hold HW HC. destruct (request_groups sok Hr) as (reqs & gs & E1 & E2 & E3 & HG & ND1 & HM & ND).
  inversion HC as [gs' m' E' C]; subst. rewrite E1 in E'. cbn [bind] in E'.
  destruct (can_write (d_mode d)) eqn:Hw; cbn [negb] in E'; [|discriminate]. rewrite E2 in E'. cbn [bind] in E'. rewrite E3 in E'. injection E' as <-.
  assert (GF : forall g, In g gs -> length (fst g) = length b /\ NoDup (snd g) /\
    forall c, In c (snd g) -> overlaps s b off n c /\ shard_of cps c = fst g).
  { intros [k cs] Hg. destruct (HG k cs Hg) as [NE HO]. cbn [fst snd]. split; [|split; [|exact HO]].
    - destruct cs as [|c cs]; [congruence|]. destruct (HO c (or_introl eq_refl)) as [Ho <-].
      apply (shard_of_len sok), valid_len. eapply overlaps_valid; eauto.
    - eapply NoDup_concat_in; [exact ND1|]. apply in_map_iff. exists (k, cs). auto. }
  pose proof (@s3_shard_writes_ok sd sok src off n st (fun _ => []) gs Hr Hsrc Hw Hold GF ND) as U.
  pose proof (@run_units _ _ _ (s3_shard_write_unit_code sd src off n) gs ([], []) gs 0%nat
    (repeat (d_fill d) (N.to_nat (prodw b))) (st, fun _ => []) Logic.eq_refl) as RU.
  destruct (@s3_run_shard_write_fold sd sok src off n gs Hw (fun g Hg => proj1 (GF g Hg)) (repeat (d_fill d) (N.to_nat (prodw b)))
     st st (fun _ => []) (fun _ => Logic.eq_refl)) as (st2 & EF & H2).
  pose proof (seq_units U (@left_over_buffer d) (fill_buffer ok)) as SU. unfold foreach_sequential in SU.
  rewrite RU, EF in SU. cbn [fst snd] in SU.
  unfold sh_write_request, write_sharded, sbind, pure in *. rewrite E1, Hw in *. cbn [negb] in *. rewrite E2, E3 in *.
  destruct (foldS (shard_write_unit sd src off n) gs (repeat (d_fill d) (N.to_nat (prodw b))) st) as [st3 [y|e|]]; cbn [fst snd ended] in *; try discriminate.
  destruct (SU Logic.eq_refl) as [RO FI].
  destruct (s3_loop_halted (key := fun i => key (fst (nth i gs ([], [])))) U (@left_over_buffer d)
    (fun i buf Hi => @puts_shard sd sok src off n (nth i gs ([], [])) buf (proj1 (GF _ (nth_In gs ([], []) Hi)))) RO (fill_buffer ok) C) as [FR C3].
  cbn [fst] in *.
  assert (NEW : forall i, (i < length gs)%nat -> fst (fst (run (s3_shard_write_unit_code sd src off n (nth i gs ([], [])) (repeat (d_fill d) (N.to_nat (prodw b)))) (st, fun _ : N => []))) (key (fst (nth i gs ([], [])))) = st3 (key (fst (nth i gs ([], []))))).
  { intros i Hi. pose proof (FI i Hi (inl (key (fst (nth i gs ([], []))))) Logic.eq_refl) as X. cbn [pget fst] in X. injection X as X. now rewrite <- X. }
  intros k. destruct (in_dec string_dec k (map (fun g => key (fst g)) gs)) as [Hk|Hk].
  - apply in_map_iff in Hk as (g & <- & Hg). pose proof (HG (fst g) (snd g)) as X0.
    rewrite <- surjective_pairing in X0. destruct (X0 Hg) as [NE HO].
    apply (In_nth _ _ ([], [])) in Hg as (i & Hi & <-).
    destruct (C3 i Hi) as [X|X]; [now left|right]. split; [rewrite X; now apply NEW|].
    destruct (snd (nth i gs ([], []))) as [|c cs]; [congruence|]. destruct (HO c (or_introl Logic.eq_refl)) as [Ho Hs].
    exists c. split; [exact Ho|]. unfold shard_key. now rewrite Hs.
  - left. apply FR. intros i Hi ->. apply Hk. apply (in_map (fun g => key (fst g))), nth_In, Hi.
Qed.
End Sharded.
