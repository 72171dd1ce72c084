(** Sub-array writes of sharded datasets that fail, on any number of threads. *)
From Verif Require Import M_Base M_Text M_Key M_Blocking M_View M_Bytes M_N5Header M_Format
  M_Mode M_Shard M_Dataset M_Sharded M_Access M_Pool M_Parallel
  S_Array S_Grid S_Bytes S_Text S_Format S_Shard S_Dataset S_Sharded S_Access S_File S_Pool S_Parallel S_Fail
  P_Base P_Blocking P_Roi P_View P_Bytes P_Key P_Format P_Shard P_Dataset P_Access P_Read P_Sharded P_File P_Pool
  P_Foreach P_Parallel P_ParWrite P_ParSharded P_ParFail.
Import List ListNotations.
Local Open Scope list_scope.
Local Open Scope N_scope.

Lemma unique_key (A B : Type) (k : A) (x y : B) : forall l, NoDup (map fst l) -> In (k, x) l -> In (k, y) l -> x = y.
Proof.
  induction l as [|[a z] l IH]; intros ND H1 H2; [destruct H1|]. cbn [map fst] in ND. apply NoDup_cons_iff in ND as [NI ND].
  destruct H1 as [H1|H1], H2 as [H2|H2].
  - congruence.
  - injection H1 as -> ->. destruct NI. apply in_map_iff. exists (k, y). auto.
  - injection H2 as -> ->. destruct NI. apply in_map_iff. exists (k, x). auto.
  - auto.
Qed.

Section Fail.
Variable sd : sharded.
Hypothesis sok : sharded_ok sd.
Notation d := (sd_base sd).
Notation w := (t_width (d_type (sd_base sd))).
Notation s := (d_shape (sd_base sd)).
Notation b := (d_chunks (sd_base sd)).
Notation cps := (sd_cps sd).
Notation ok := (so_base sok).
Notation b0 := (repeat (d_fill (sd_base sd)) (N.to_nat (prodw (d_chunks (sd_base sd))))).

(** ** The chunks of one shard *)
Lemma chunk_step src off n c blobs x : region_ok d off n -> source_ok w n src -> overlaps s b off n c ->
  lenN blobs = prod cps -> getN blobs (slot_of sd c) = Ok x -> (x <> [] -> decodes sd x) ->
  (exists buf1 blobs1, any_buffer d buf1 /\ lenN blobs1 = lenN blobs /\
     (forall i, i <> slot_of sd c -> getN blobs1 i = getN blobs i) /\
     forall buf, any_buffer d buf -> shard_write_chunk sd src off n (buf, blobs) c = Ok (buf1, blobs1)) \/
  (exists e, forall buf, any_buffer d buf -> shard_write_chunk sd src off n (buf, blobs) c = Throw e).
Proof.
  intros Hreg Hsrc Hov LB Gx HF. pose proof (overlaps_valid Hov) as Hc.
  destruct (slot sok (valid_len Hc)) as [S1 S2]. unfold shard_write_chunk.
  destruct (prepare_steady ok Hreg Hsrc Hov (existing_blob_steady sok Hc HF)) as [(buf1 & HB & E)|(e & E)].
  2:{ right. exists e. intros buf Hb. rewrite S1. cbn [bind]. rewrite Gx. cbn [bind]. rewrite E by exact Hb. reflexivity. }
  rewrite (stored_b sok) in HB. destruct (blob_made sok Hc HB) as [ob EO].
  left. exists buf1. eexists. split; [eexists; exact HB|]. split; [|split].
  3:{ intros buf Hb. rewrite S1. cbn [bind]. rewrite Gx. cbn [bind]. rewrite E by exact Hb. cbn [bind]. rewrite EO. cbn [bind].
      rewrite setN_ok by (now rewrite LB). reflexivity. }
  - apply lenN_set_nth.
  - intros i Hi. apply getN_set_other; auto.
Qed.

Lemma step_good off n k c cs (blobs blobs1 : list bytes) :
  (forall c', In c' (c :: cs) -> overlaps s b off n c' /\ shard_of cps c' = k) -> ~ In c cs ->
  lenN blobs1 = lenN blobs -> (forall i, i <> slot_of sd c -> getN blobs1 i = getN blobs i) ->
  forall c', In c' cs -> getN blobs1 (slot_of sd c') = getN blobs (slot_of sd c').
Proof.
  intros HO Hni LB G c' Hc'. apply G. intros Eq. apply Hni. destruct (HO c' (or_intror Hc')) as [Hov' Hk'].
  destruct (HO c (or_introl eq_refl)) as [Hov Hk].
  replace c with c'; [exact Hc'|].
  apply (slot_inj sok (valid_len (overlaps_valid Hov')) (valid_len (overlaps_valid Hov))); congruence.
Qed.

(** A chunk that cannot be merged stops the shard. *)
Lemma chunks_throw src off n k c x : region_ok d off n -> source_ok w n src -> must_merge d off n c ->
  (forall buf, buffer_of w (prod b) buf -> exists e, shard_existing sd x buf = Throw e) ->
  forall cs, (forall c, In c cs -> overlaps s b off n c /\ shard_of cps c = k) -> NoDup cs -> In c cs ->
  forall blobs, slots_good sd blobs cs -> getN blobs (slot_of sd c) = Ok x ->
  forall buf, any_buffer d buf -> exists e, foldM (shard_write_chunk sd src off n) cs (buf, blobs) = Throw e.
Proof.
  intros Hreg Hsrc HM He. induction cs as [|c0 cs IH]; intros HO ND IN blobs [LB HS] Gx buf Hb; [destruct IN|].
  cbn [foldM]. destruct (HO c0 (or_introl eq_refl)) as [Hov Hk]. apply NoDup_cons_iff in ND as [Hni ND].
  destruct (HS c0 (or_introl eq_refl)) as (x0 & Gx0 & HF0).
  destruct (chunk_step Hreg Hsrc Hov LB Gx0 HF0) as [(buf1 & blobs1 & HB1 & L1 & G1 & E)|(e & E)].
  2:{ exists e. now rewrite E. }
  destruct IN as [-> |IN].
  - exfalso. assert (x0 = x) by congruence. subst x0.
    destruct (He _ (@full_buffer_ok sd _ (fill_buffer ok))) as (e & He0).
    assert (ST : exists e, forall buf, buffer_of w (prod (stored_shape d c)) buf -> shard_existing sd x buf = Throw e).
    { rewrite (stored_b sok). destruct (existing_blob_steady sok (overlaps_valid Hov) HF0) as [(old & _ & EX)|X].
      - exfalso. rewrite (stored_b sok) in EX. specialize (EX _ (@full_buffer_ok sd _ (fill_buffer ok))).
        rewrite He0 in EX. destruct old; discriminate EX.
      - destruct X as (e' & X). rewrite (stored_b sok) in X. exists e'. exact X. }
    destruct ST as (e' & ST). pose proof (merge_throws ok src Hreg Hov HM ST Hb) as HP.
    specialize (E buf Hb). unfold shard_write_chunk in E. destruct (slot sok (valid_len (overlaps_valid Hov))) as [S1 _].
    rewrite S1 in E. cbn [bind] in E. rewrite Gx in E. cbn [bind] in E. rewrite HP in E. discriminate E.
  - rewrite E by exact Hb. cbn [bind]. pose proof (@step_good off n k c0 cs blobs blobs1 HO Hni L1 G1) as SG.
    apply IH; auto.
    + intros c' Hc'. apply HO. now right.
    + split; [congruence|]. intros c' Hc'. destruct (HS c' (or_intror Hc')) as (x' & Gx' & HF'). exists x'. split; [|exact HF'].
      now rewrite SG.
    + now rewrite SG.
Qed.

(** Empty slots never stop it. *)
Lemma chunks_fine src off n k : region_ok d off n -> source_ok w n src ->
  forall cs, (forall c, In c cs -> overlaps s b off n c /\ shard_of cps c = k) -> NoDup cs ->
  forall blobs, lenN blobs = prod cps -> (forall c, In c cs -> getN blobs (slot_of sd c) = Ok []) ->
  forall buf, any_buffer d buf -> exists r, foldM (shard_write_chunk sd src off n) cs (buf, blobs) = Ok r.
Proof.
  intros Hreg Hsrc. induction cs as [|c0 cs IH]; intros HO ND blobs LB HS buf Hb; cbn [foldM]; [eauto|].
  destruct (HO c0 (or_introl eq_refl)) as [Hov Hk]. apply NoDup_cons_iff in ND as [Hni ND].
  assert (HF0 : ([] : bytes) <> [] -> decodes sd []) by congruence.
  destruct (chunk_step Hreg Hsrc Hov LB (HS c0 (or_introl eq_refl)) HF0) as [(buf1 & blobs1 & HB1 & L1 & G1 & E)|(e & E)].
  - rewrite E by exact Hb. cbn [bind]. pose proof (@step_good off n k c0 cs blobs blobs1 HO Hni L1 G1) as SG.
    apply IH; auto; [|congruence|].
    + intros c' Hc'. apply HO. now right.
    + intros c' Hc'. rewrite SG by exact Hc'. apply HS. now right.
  - exfalso. specialize (E buf Hb). unfold shard_write_chunk in E. pose proof (overlaps_valid Hov) as Hc.
    destruct (slot sok (valid_len Hc)) as [S1 _]. rewrite S1 in E. cbn [bind] in E. rewrite (HS c0 (or_introl eq_refl)) in E. cbn [bind] in E.
    assert (HE : existing_ok d (shard_existing sd []) (prod (stored_shape d c0)) None) by (intros y _; reflexivity).
    destruct (prepare_spec ok Hreg Hsrc Hov Hb (Logic.I : content_ok d c0 None) HE) as (buf' & EP & PP).
    rewrite EP in E. cbn [bind] in E. pose proof (proj1 PP) as HB. rewrite (stored_b sok) in HB. destruct (blob_made sok Hc HB) as [ob EO].
    rewrite EO in E. cbn [bind] in E. rewrite setN_ok in E; [discriminate E|].
    rewrite LB. apply (slot sok (valid_len Hc)).
Qed.

(** ** One shard *)
Section Unit.
Variables (src : source) (off n k : shape) (cs : list shape).
Hypothesis Hreg : region_ok d off n.
Hypothesis Hsrc : source_ok w n src.
Hypothesis Hlen : length k = length b.
Hypothesis Hcs : forall c, In c cs -> overlaps s b off n c /\ shard_of cps c = k.
Hypothesis Hnd : NoDup cs.
Hypothesis Hw : can_write (d_mode d) = true.

Lemma unit_throws st c : In c cs -> (forall c, In c cs -> slot_steady sd st c) ->
  corrupt sd st c \/ (must_merge d off n c /\ exists x, sh_read_raw_chunk sd st c = Ok x /\ x <> [] /\ file_cells d c x = None /\ complete_file d c x) ->
  exists e, shard_write_unit sd src off n b0 (k, cs) st = (st, Throw e).
Proof.
  intros Hc Hst HX. unfold shard_write_unit, sbind, reading. cbn [fst snd].
  destruct (Hcs Hc) as [Hov Hk].
  destruct (shard_cases sok st Hlen) as [[E _]|(blobs & raw & E & _ & LB & _ & HB)]; rewrite E; cbn [bind]; [eauto|].
  destruct HX as [(file & Es & P)|(HM & x & Ex & NE & FC & CF)].
  - exfalso. revert E. unfold read_shard_blobs. destruct (shard_handle_ok sok Hlen) as [bs ->]. cbn [bind ch_key].
    unfold store_read. unfold shard_key in Es. rewrite Hk in Es. rewrite Es, (slots_eq sok), P. discriminate.
  - destruct (HB c (valid_len (overlaps_valid Hov)) Hk) as (x' & Gx & Ex'). assert (x' = x) by congruence. subst x'.
    assert (HD : forall buf, buffer_of w (prod b) buf -> exists e, shard_existing sd x buf = Throw e).
    { intros buf Hb. assert (HP : file_parts d x = Some (prod b, x)) by (unfold file_parts; now rewrite (so_zarr sok)).
      pose proof (@unpack_spec d ok c b x x buf (or_intror eq_refl) (overlaps_valid Hov) CF HP Hb) as HU.
      unfold file_cells in FC. rewrite HP in FC. destruct (unpack d (prod b) x); [discriminate|]. destruct HU as (e & HU).
      exists e. unfold shard_existing. destruct x; [congruence|]. rewrite (proj1 Hb), HU. reflexivity. }
    destruct (@chunks_throw src off n k c x Hreg Hsrc HM HD cs Hcs Hnd Hc blobs) with (buf := b0) as (e & ->); auto.
    + split; [exact LB|]. intros c' Hc'. destruct (Hcs Hc') as [Ho' Hk'].
      destruct (HB c' (valid_len (overlaps_valid Ho')) Hk') as (y & Gy & Ey). exists y. split; [exact Gy|]. apply (Hst c' Hc'), Ey.
    + apply (fill_buffer ok).
    + eauto.
Qed.

Lemma unit_new st : st (chunk_key (d_key d) k) = None -> exists y, snd (shard_write_unit sd src off n b0 (k, cs) st) = Ok y.
Proof.
  intros E. unfold shard_write_unit, sbind, reading, pure. cbn [fst snd]. unfold read_shard_blobs.
  destruct (shard_handle_ok sok Hlen) as [bs ->]. cbn [bind ch_key]. unfold store_read. rewrite E. cbn [bind].
  destruct (@chunks_fine src off n k Hreg Hsrc cs Hcs Hnd (repeat [] (N.to_nat (sd_slots sd)))) with (buf := b0) as (r & ->).
  - rewrite lenN_repeat, (slots_eq sok). lia.
  - intros c Hc. destruct (Hcs Hc) as [Hov _]. apply getN_ok, nth_error_repeat. rewrite (slots_eq sok).
    pose proof (proj2 (slot sok (valid_len (overlaps_valid Hov)))). lia.
  - apply (fill_buffer ok).
  - rewrite blobs_written by auto. eexists. reflexivity.
Qed.

Lemma shard_unit_local st st2 : st (chunk_key (d_key d) k) = st2 (chunk_key (d_key d) k) ->
  snd (shard_write_unit sd src off n b0 (k, cs) st) = snd (shard_write_unit sd src off n b0 (k, cs) st2) /\
  fst (shard_write_unit sd src off n b0 (k, cs) st) (chunk_key (d_key d) k) = fst (shard_write_unit sd src off n b0 (k, cs) st2) (chunk_key (d_key d) k).
Proof.
  intros E.
  destruct (@run_shard_write sd sok src off n k cs Hlen Hw st st (fun _ => []) b0 (fun _ => eq_refl)) as (s1 & E1 & H1).
  destruct (@run_shard_write sd sok src off n k cs Hlen Hw st2 st2 (fun _ => []) b0 (fun _ => eq_refl)) as (s2 & E2 & H2).
  destruct (confined_run (@conf_shard_write sd sok src off n k cs Hlen Hw b0) (m := (st, fun _ => [])) (m' := (st2, fun _ => []))) as [A B].
  { intros l [->|[]]. cbn. now rewrite E. }
  rewrite E1, E2 in *. cbn [fst snd] in *. split; [exact A|].
  specialize (B (inl (chunk_key (d_key d) k))). cbn in B. rewrite <- H1, <- H2.
  assert (X : inl (s1 (chunk_key (d_key d) k)) = inl (s2 (chunk_key (d_key d) k)) :> option bytes + cell) by (apply B; now rewrite E).
  now injection X.
Qed.
End Unit.

(** ** The whole write *)
Section Run.
Variables (threads : N) (est : Z) (src : source) (off n : shape) (st st1 : store) (r : outcome unit).
Hypothesis Hreg : region_ok d off n.
Hypothesis Hsrc : source_ok w n src.
Hypothesis Hst : forall c, overlaps s b off n c -> slot_steady sd st c.
Hypothesis Hrun : sh_write_run sd threads est src off n st st1 r.

Lemma sh_run_cases : (can_write (d_mode d) = false /\ st1 = st /\ r = Throw EInvalidArgument) \/
  (can_write (d_mode d) = true /\ exists gs, (let! reqs := begin_request d off n in group_chunks cps reqs) = Ok gs /\
    (forall g, In g gs -> length (fst g) = length b /\ NoDup (snd g) /\
       forall c, In c (snd g) -> overlaps s b off n c /\ shard_of cps c = fst g) /\
    (NoDup (map fst gs) /\ forall c, overlaps s b off n c -> exists g, In g gs /\ In c (snd g)) /\
    (forall g, In g gs -> st1 (chunk_key (d_key d) (fst g)) = st (chunk_key (d_key d) (fst g)) \/
       st1 (chunk_key (d_key d) (fst g)) = fst (shard_write_unit sd src off n b0 g st) (chunk_key (d_key d) (fst g))) /\
    (forall g e, In g gs -> snd (shard_write_unit sd src off n b0 g st) = Throw e -> exists e', r = Throw e') /\
    ((forall g, In g gs -> exists y, snd (shard_write_unit sd src off n b0 g st) = Ok y) ->
      r = Ok tt /\ forall g, In g gs ->
        st1 (chunk_key (d_key d) (fst g)) = fst (shard_write_unit sd src off n b0 g st) (chunk_key (d_key d) (fst g)))).
Proof.
  destruct (request_groups sok Hreg) as (reqs & gs & E1 & E2 & E3 & HG & ND1 & HALL & ND).
  destruct (can_write (d_mode d)) eqn:Hw.
  2:{ left. destruct Hrun as [gs' m1 r' E' H|e E']; rewrite E1 in E'; cbn [bind] in E'; rewrite Hw in E'; cbn [negb] in E'; [discriminate|].
      injection E' as <-. auto. }
  right. split; [reflexivity|]. exists gs.
  assert (GF : forall g, In g gs -> length (fst g) = length b /\ NoDup (snd g) /\
    forall c, In c (snd g) -> overlaps s b off n c /\ shard_of cps c = fst g).
  { intros [k cs] Hg. destruct (HG k cs Hg) as [NE HO]. cbn [fst snd]. split; [|split; [|exact HO]].
    - destruct cs as [|c cs]; [congruence|]. destruct (HO c (or_introl eq_refl)) as [Ho <-].
      apply (shard_of_len sok), valid_len. eapply overlaps_valid; eauto.
    - eapply NoDup_concat_in; [exact ND1|]. apply in_map_iff. exists (k, cs). auto. }
  split; [rewrite E1; exact E3|]. split; [exact GF|]. split.
  { split; [exact ND|]. intros c Hc. apply HALL in Hc. apply in_concat in Hc as (cs & Hcs & Hc). apply in_map_iff in Hcs as (g & <- & Hg). eauto. }
  destruct Hrun as [gs' m1 r' E' H|e E']; rewrite E1 in E'; cbn [bind] in E'; rewrite Hw, E2 in E'; cbn [negb bind] in E'; rewrite E3 in E'; [|discriminate].
  injection E' as <-.
  pose proof (@shard_writes_ok sd sok src off n st (fun _ => []) gs Hreg Hsrc Hw Hst GF ND) as U.
  assert (FIN : forall i, (i < length gs)%nat ->
    (forall k, fst (fst (run (shard_write_unit_code sd src off n (nth i gs ([], [])) b0) (st, fun _ => []))) k =
       fst (shard_write_unit sd src off n b0 (nth i gs ([], [])) st) k) /\
    snd (run (shard_write_unit_code sd src off n (nth i gs ([], [])) b0) (st, fun _ => [])) = snd (shard_write_unit sd src off n b0 (nth i gs ([], [])) st)).
  { intros i Hi. destruct (GF _ (nth_In gs ([], []) Hi)) as (LK & _). destruct (nth i gs ([], [])) as [k cs]. cbn [fst] in LK.
    destruct (@run_shard_write sd sok src off n k cs LK Hw st st (fun _ => []) b0 (fun _ => eq_refl)) as (st2 & -> & H2). split; [exact H2|reflexivity]. }
  destruct (foreach_run_result U (@left_over_buffer d) (fill_buffer ok) H) as (R1 & _ & bss & B1 & _ & B3 & B4).
  split; [|split].
  - intros g Hg. apply (In_nth _ _ ([], [])) in Hg as (i & Hi & <-).
    assert (IN : In i (concat bss)) by (rewrite B1; apply in_seq; lia).
    apply in_concat in IN as (bs & Hbs & Hib).
    destruct (in_dec Nat.eq_dec i (started (fun i => ended (snd (run (shard_write_unit_code sd src off n (nth i gs ([], [])) b0) (st, fun _ => [])))) bs)) as [S|S].
    + right. specialize (B3 bs i Hbs S (inl (chunk_key (d_key d) (fst (nth i gs ([], []))))) eq_refl). cbn in B3. injection B3 as ->.
      apply (FIN i Hi).
    + left. specialize (B4 bs i Hbs Hib S (inl (chunk_key (d_key d) (fst (nth i gs ([], []))))) eq_refl). cbn in B4. now injection B4.
  - intros g e Hg Hr. apply (In_nth _ _ ([], [])) in Hg as (i & Hi & <-).
    assert (X : exists e', first_error (map (fun i => ended (snd (run (shard_write_unit_code sd src off n (nth i gs ([], [])) b0) (st, fun _ => [])))) (seq 0 (length gs))) = Some e').
    { assert (IN : In i (seq 0 (length gs))) by (apply in_seq; lia). revert IN. generalize (seq 0 (length gs)) as l.
      induction l as [|j l IH]; [intros []|]. intros IN. cbn [map first_error].
      destruct IN as [-> |IN].
      - destruct (FIN i Hi) as [_ ->]. rewrite Hr. cbn. eauto.
      - match goal with |- exists e', match ?x with _ => _ end = _ => destruct x as [u|e2|] end; [exact (IH IN)|exists e2; reflexivity|exact (IH IN)]. }
    destruct X as (e' & X). rewrite X in R1. cbn in R1. eauto.
  - intros Hok. destruct (foreach_run_ok U (@left_over_buffer d) (fill_buffer ok) H) as (R2 & R3 & _).
    { intros i Hi. destruct (FIN i Hi) as [_ ->]. destruct (Hok _ (nth_In gs ([], []) Hi)) as (y & ->). reflexivity. }
    split; [exact R2|]. intros g Hg. apply (In_nth _ _ ([], [])) in Hg as (i & Hi & <-).
    specialize (R3 i Hi (inl (chunk_key (d_key d) (fst (nth i gs ([], []))))) eq_refl). cbn in R3. injection R3 as ->. apply (FIN i Hi).
Qed.
End Run.

Theorem shard_unreadable_kept threads est src off n st st1 r : region_ok d off n -> source_ok w n src ->
  (forall c, overlaps s b off n c -> complete_slot sd st c) ->
  sh_write_run sd threads est src off n st st1 r ->
  forall c, overlaps s b off n c ->
  corrupt sd st c \/
  (must_merge d off n c /\ exists x, sh_read_raw_chunk sd st c = Ok x /\ x <> [] /\ file_cells d c x = None) ->
  (exists e, r = Throw e) /\ st1 (shard_key sd c) = st (shard_key sd c).
Proof.
  intros Hreg Hsrc Hcomp Hrun c Hc HX.
  assert (Hst : forall c, overlaps s b off n c -> slot_steady sd st c) by (intros c' Hc'; apply complete_steady; eauto using overlaps_valid).
  destruct (sh_run_cases Hreg Hsrc Hst Hrun) as [(_ & -> & ->)|(Hw & gs & EG & GF & [NDK HALL] & C1 & C2 & _)]; [split; eauto|].
  destruct (HALL c Hc) as ([k cs] & Hg & Hin). destruct (GF _ Hg) as (LK & ND & HO). cbn [fst snd] in *.
  destruct (@unit_throws src off n k cs Hreg Hsrc LK HO ND st c Hin) as (e & E).
  - intros c' Hc'. apply Hst, HO, Hc'.
  - destruct HX as [HX|(HM & x & X1 & X2 & X3)]; [left; exact HX|right]. split; [exact HM|]. exists x. split; [exact X1|]. split; [exact X2|]. split; [exact X3|]. exact (Hcomp c Hc x X1 X2).
  - split; [eapply (C2 _ e Hg); now rewrite E|].
    unfold shard_key. rewrite (proj2 (HO c Hin)). destruct (C1 _ Hg) as [X|X]; cbn [fst] in X; rewrite X; [reflexivity|]. now rewrite E.
Qed.

Theorem shard_atomic threads est src off n st st1 r : region_ok d off n -> source_ok w n src ->
  (forall c, overlaps s b off n c -> complete_slot sd st c) ->
  sh_write_run sd threads est src off n st st1 r ->
  forall c, overlaps s b off n c ->
  st1 (shard_key sd c) = st (shard_key sd c) \/
  exists st', sh_write_request sd src off n (only_shard sd c st) = (st', Ok tt) /\
    st1 (shard_key sd c) = st' (shard_key sd c).
Proof.
  intros Hreg Hsrc Hcomp Hrun c Hc.
  assert (Hst : forall c, overlaps s b off n c -> slot_steady sd st c) by (intros c' Hc'; apply complete_steady; eauto using overlaps_valid).
  destruct (sh_run_cases Hreg Hsrc Hst Hrun) as [(_ & -> & _)|(Hw & gs & EG & GF & [NDK HALL] & C1 & _ & _)]; [left; reflexivity|].
  destruct (HALL c Hc) as ([k cs] & Hg & Hin). destruct (GF _ Hg) as (LK & ND & HO). cbn [fst snd] in *.
  assert (EK : shard_key sd c = chunk_key (d_key d) k) by (unfold shard_key; now rewrite (proj2 (HO c Hin))).
  destruct (C1 _ Hg) as [L|L]; cbn [fst] in L; [left; now rewrite EK|].
  destruct (@shard_write_steady sd sok src off n k cs Hreg Hsrc LK HO ND Hw st (fun c' H => Hst c' (proj1 (HO c' H)))) as [(v & R)|(e & R)].
  2:{ left. rewrite EK, L, R by apply (fill_buffer ok). reflexivity. }
  destruct (R b0 (fill_buffer ok)) as (y & _ & Ey).
  right. set (stc := only_shard sd c st).
  assert (Ekey : st (chunk_key (d_key d) k) = stc (chunk_key (d_key d) k)) by (unfold stc, only_shard; rewrite EK; now rewrite String.eqb_refl).
  destruct (@shard_unit_local src off n k cs LK Hw st stc Ekey) as [U1 U2].
  assert (SAME : forall c', length c' = length b -> shard_of cps c' = k -> sh_read_raw_chunk sd stc c' = sh_read_raw_chunk sd st c').
  { intros c' L' Hk'. unfold sh_read_raw_chunk, read_shard. rewrite (@shard_id_spec c' cps (cps_pos sok)) by (rewrite (cps_len sok); exact L').
    cbn [bind]. rewrite Hk'. destruct (shard_handle_ok sok LK) as [bs ->]. cbn [bind ch_key]. unfold store_read. now rewrite <- Ekey. }
  assert (OTHER : forall k', k' <> k -> stc (chunk_key (d_key d) k') = None).
  { intros k' NE. unfold stc, only_shard. rewrite EK.
    destruct (String.eqb_spec (chunk_key (d_key d) k') (chunk_key (d_key d) k)) as [E|]; [|reflexivity].
    apply (key_inj ok) in E. contradiction. }
  assert (STC : forall c', overlaps s b off n c' -> slot_steady sd stc c').
  { intros c' Hc'. pose proof (valid_len (overlaps_valid Hc')) as L'. destruct (list_eq_dec N.eq_dec (shard_of cps c') k) as [Ek|NE].
    - intros x Hx. rewrite SAME in Hx by auto. apply (Hst c' Hc' x Hx).
    - intros x Hx NX. exfalso. revert Hx. unfold sh_read_raw_chunk, read_shard. rewrite (@shard_id_spec c' cps (cps_pos sok)) by (rewrite (cps_len sok); exact L').
      cbn [bind]. destruct (shard_handle_ok sok (shard_of_len sok L')) as [bs ->]. cbn [bind ch_key]. unfold store_read. rewrite (OTHER _ NE). cbn [bind]. congruence. }
  destruct (sh_write_exists_steady sok 1 1%Z Hreg Hsrc STC) as (st2 & r2 & R2).
  destruct (sh_run_cases Hreg Hsrc STC R2) as [(Hw' & _)|(_ & gs2 & EG2 & _ & _ & _ & _ & C3)]; [congruence|].
  assert (gs2 = gs) by congruence. subst gs2.
  destruct (sh_par_write_steady sok Hreg Hsrc STC R2) as (P1 & P2 & _).
  destruct C3 as [-> V].
  { intros [k' cs'] Hg'. destruct (GF _ Hg') as (LK' & ND' & HO'). cbn [fst snd] in *.
    destruct (list_eq_dec N.eq_dec k' k) as [-> |NE].
    - assert (cs' = cs) as -> by (eapply unique_key; eauto). rewrite <- U1, Ey. eexists. reflexivity.
    - apply (@unit_new src off n k' cs' Hreg Hsrc LK' HO' ND' Hw). now apply OTHER. }
  exists (fst (sh_write_request sd src off n stc)). split; [rewrite (surjective_pairing (sh_write_request sd src off n stc)); cbn [fst]; now rewrite <- P1|].
  pose proof (V _ Hg) as V1. cbn [fst] in V1. rewrite EK, <- (P2 eq_refl), V1, L. exact U2.
Qed.
End Fail.
