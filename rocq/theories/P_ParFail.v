(** Sub-array writes of plain datasets that fail, on any number of threads. *)
From Verif Require Import M_Base M_Text M_Key M_Blocking M_View M_Bytes M_N5Header M_Format
  M_Mode M_Shard M_Dataset M_Sharded M_Access M_Pool M_Parallel
  S_Array S_Grid S_Bytes S_Text S_Format S_Dataset S_Access S_File S_Pool S_Parallel S_Fail
  P_Base P_Blocking P_Roi P_View P_Bytes P_Key P_Format P_Dataset P_Access P_Read P_File P_Pool P_Foreach P_Parallel P_ParWrite
  P_ParSharded.
Import List ListNotations.
Local Open Scope list_scope.
Local Open Scope N_scope.

Section Fail.
Variable d : dataset.
Hypothesis ok : dataset_ok d.
Notation w := (t_width (d_type d)).
Notation s := (d_shape d).
Notation b := (d_chunks d).
Notation valid := (valid_chunk (d_shape d) (d_chunks d)).

Lemma all2_prod_le : forall u v, all2 (fun e b => e <= b) u v -> prod u <= prod v.
Proof using. clear. induction u as [|x u IH]; intros [|y v] H; cbn in *; try tauto; [lia|]. destruct H as [H1 H2]. specialize (IH v H2). nia. Qed.
Lemma prod_le_eq : forall u v, all2 (fun e b => e <= b) u v -> 0 < prod v -> prod u = prod v -> u = v.
Proof using.
  clear. induction u as [|x u IH]; intros [|y v] H HP E; cbn [all2] in H; try tauto.
  destruct H as [H1 H2]. pose proof (@all2_prod_le u v H2) as LE. cbn in HP, E.
  change (fold_right N.mul 1 u) with (prod u) in *. change (fold_right N.mul 1 v) with (prod v) in *.
  assert (P : 0 < prod v) by nia.
  assert (x = y) by (destruct (N.eq_dec x y) as [|NE]; [assumption|exfalso; assert (x + 1 <= y) by lia; nia]).
  subst. f_equal. apply IH; auto. nia.
Qed.

Lemma merge_throws off n c src rd e : region_ok d off n -> overlaps s b off n c -> must_merge d off n c ->
  (forall buf, buffer_of w (prod (stored_shape d c)) buf -> rd buf = Throw e) ->
  forall buf, any_buffer d buf -> prepare_chunk d off n c src rd buf = Throw e.
Proof.
  intros Hreg Hov HM He buf Hb. pose proof (overlaps_valid Hov) as Hc.
  destruct (coords_in_roi_exact (do_dims ok) (proj1 Hreg) (proj2 Hreg) Hov) as (r & Er & R).
  set (pad := negb (prodw (chunk_extent s b c) =? prodw b) && d_zarr d).
  assert (Hsz : (if pad then prodw b else prodw (chunk_extent s b c)) = prod (stored_shape d c)).
  { destruct (stored_props ok Hc) as (_ & _ & _ & SW & _ & _). rewrite <- (prodw_small SW).
    unfold pad, stored_shape. destruct (d_zarr d); rewrite ?andb_false_r, ?andb_true_r; [|reflexivity].
    destruct (N.eqb_spec (prodw (chunk_extent s b c)) (prodw b)) as [E|]; cbn; congruence. }
  assert (Ec : r_complete r && negb pad = false).
  { destruct HM as [(x & H1 & H2)|[Hz Hne]].
    - destruct (r_complete r) eqn:Ec; [|reflexivity]. destruct H2. exact (proj1 (re_complete R) eq_refl x H1).
    - apply andb_false_iff. right. apply negb_false_iff. unfold pad. rewrite Hz, andb_true_r. apply negb_true_iff, N.eqb_neq.
      intros E. apply Hne. destruct (extent_props ok Hc) as (_ & LP & LE & _). pose proof (prod_chunks_small ok) as PS.
      destruct (stored_props ok Hc) as (_ & PP & PQ & _).
      rewrite !prodw_small in E by lia. apply prod_le_eq; auto. lia. }
  unfold prepare_chunk. rewrite Er. cbn [bind]. rewrite (chunk_shape_ok ok Hc). cbn [bind].
  fold pad. rewrite Ec, Hsz. rewrite He; [reflexivity|]. now apply sized_buffer.
Qed.

Section Run.
Variables (threads : N) (est : Z) (src : source) (off n : shape) (st st1 : store) (r : outcome unit).
Hypothesis Hreg : region_ok d off n.
Hypothesis Hsrc : source_ok w n src.
Hypothesis Hfiles : forall c file, overlaps s b off n c -> st (chunk_key (d_key d) c) = Some file -> overwritable d c file.
Hypothesis Hrun : write_run d threads est src off n st st1 r.
Notation b0 := (repeat (d_fill d) (N.to_nat (prodw b))).
Notation fin c m := (fst (write_unit d src off n b0 c m)).
Notation res c m := (ended (snd (write_unit d src off n b0 c m))).

Lemma all_steady c : overlaps s b off n c -> steady d (plain_existing d st c) c.
Proof using ok Hfiles. intros Hc. apply existing_steady; eauto using overlaps_valid. Qed.

(** Each covered chunk is as it was, or as its own part of the write leaves it; the
    first failure is thrown. *)
Lemma run_cases : (forall c, overlaps s b off n c ->
    st1 (chunk_key (d_key d) c) = st (chunk_key (d_key d) c) \/
    st1 (chunk_key (d_key d) c) = fin c st (chunk_key (d_key d) c)) /\
  (forall c e, overlaps s b off n c -> res c st = Throw e -> exists e', r = Throw e').
Proof.
  destruct (begin_request_ok ok Hreg) as (reqs & E & ND & _ & HI).
  destruct Hrun as [reqs' m1 r' E' H|e E']; [|congruence]. assert (reqs' = reqs) by congruence. subst reqs'. clear E'.
  pose proof (@write_units_ok d ok src off n st (fun _ => []) reqs Hreg Hsrc all_steady (fun c => proj1 (HI c)) ND) as U.
  destruct (foreach_run_result U (@left_over_buffer d) (fill_buffer ok) H) as (R1 & _ & bss & B1 & _ & B3 & B4).
  assert (FIN : forall i, (i < length reqs)%nat ->
    (forall k, fst (fst (run (write_unit_code d src off n (nth i reqs []) b0) (st, fun _ => []))) k = fin (nth i reqs []) st k) /\
    snd (run (write_unit_code d src off n (nth i reqs []) b0) (st, fun _ => [])) = snd (write_unit d src off n b0 (nth i reqs []) st)).
  { intros i Hi. destruct (@run_write_unit d ok src off n b0 (nth i reqs []) st st (fun _ => [])
      (overlaps_valid (proj1 (HI _) (nth_In _ _ Hi))) (fun _ => eq_refl)) as (st2 & -> & H2). split; [exact H2|reflexivity]. }
  split.
  - intros c Hc. apply HI in Hc. apply (In_nth _ _ []) in Hc as (i & Hi & <-).
    assert (IN : In i (concat bss)) by (rewrite B1; apply in_seq; lia).
    apply in_concat in IN as (bs & Hbs & Hib).
    destruct (in_dec Nat.eq_dec i (started (fun i => ended (snd (run (write_unit_code d src off n (nth i reqs []) b0) (st, fun _ => [])))) bs)) as [S|S].
    + right. specialize (B3 bs i Hbs S (inl (chunk_key (d_key d) (nth i reqs []))) eq_refl). cbn in B3. injection B3 as ->.
      apply (FIN i Hi).
    + left. specialize (B4 bs i Hbs Hib S (inl (chunk_key (d_key d) (nth i reqs []))) eq_refl). cbn in B4. now injection B4.
  - intros c e Hc Hr. apply HI in Hc. apply (In_nth _ _ []) in Hc as (i & Hi & <-).
    assert (X : exists e', first_error (map (fun i => ended (snd (run (write_unit_code d src off n (nth i reqs []) b0) (st, fun _ => [])))) (seq 0 (length reqs))) = Some e').
    { assert (IN : In i (seq 0 (length reqs))) by (apply in_seq; lia). revert IN. generalize (seq 0 (length reqs)) as l.
      induction l as [|j l IH]; [intros []|]. intros IN. cbn [map first_error].
      destruct IN as [-> |IN].
      - destruct (FIN i Hi) as [_ ->]. rewrite Hr. eauto.
      - match goal with |- exists e', match ?x with _ => _ end = _ => destruct x as [u|e2|] end; [exact (IH IN)|exists e2; reflexivity|exact (IH IN)]. }
    destruct X as (e' & X). rewrite X in R1. cbn in R1. eauto.
Qed.

Theorem unreadable_kept c file : overlaps s b off n c -> must_merge d off n c ->
  st (chunk_key (d_key d) c) = Some file -> file_cells d c file = None ->
  (exists e, r = Throw e) /\ st1 (chunk_key (d_key d) c) = Some file.
Proof.
  intros Hc HM Es FC. destruct (existing_unreadable ok (overlaps_valid Hc) Es (Hfiles Hc Es) FC) as (e & He).
  pose proof (merge_throws src Hreg Hc HM He (fill_buffer ok)) as HP.
  assert (W : write_unit d src off n b0 c st = (st, Throw e)) by (unfold write_unit, sbind, reading; now rewrite HP).
  destruct run_cases as [C1 C2]. split.
  - eapply (C2 c e Hc). now rewrite W.
  - rewrite <- Es. destruct (C1 c Hc) as [->| ->]; [reflexivity|]. now rewrite W.
Qed.
End Run.

Notation b0 := (repeat (d_fill d) (N.to_nat (prodw b))).
Lemma run_all_ok threads est src off n st st1 r : region_ok d off n -> source_ok w n src ->
  (forall c, overlaps s b off n c -> steady d (plain_existing d st c) c) ->
  (forall c, overlaps s b off n c -> exists y, snd (write_unit d src off n b0 c st) = Ok y) ->
  write_run d threads est src off n st st1 r ->
  r = Ok tt /\ forall c, overlaps s b off n c ->
    st1 (chunk_key (d_key d) c) = fst (write_unit d src off n b0 c st) (chunk_key (d_key d) c).
Proof.
  intros Hreg Hsrc Hst Hok Hrun. destruct (begin_request_ok ok Hreg) as (reqs & E & ND & _ & HI).
  destruct Hrun as [reqs' m1 r' E' H|e E']; [|congruence]. assert (reqs' = reqs) by congruence. subst reqs'. clear E'.
  pose proof (@write_units_ok d ok src off n st (fun _ => []) reqs Hreg Hsrc Hst (fun c => proj1 (HI c)) ND) as U.
  assert (FIN : forall i, (i < length reqs)%nat ->
    (forall k, fst (fst (run (write_unit_code d src off n (nth i reqs []) b0) (st, fun _ => []))) k =
       fst (write_unit d src off n b0 (nth i reqs []) st) k) /\
    snd (run (write_unit_code d src off n (nth i reqs []) b0) (st, fun _ => [])) = snd (write_unit d src off n b0 (nth i reqs []) st)).
  { intros i Hi. destruct (@run_write_unit d ok src off n b0 (nth i reqs []) st st (fun _ => [])
      (overlaps_valid (proj1 (HI _) (nth_In _ _ Hi))) (fun _ => eq_refl)) as (st2 & -> & H2). split; [exact H2|reflexivity]. }
  destruct (foreach_run_ok U (@left_over_buffer d) (fill_buffer ok) H) as (R1 & R2 & _).
  { intros i Hi. destruct (FIN i Hi) as [_ ->]. destruct (Hok _ (proj1 (HI _) (nth_In reqs [] Hi))) as (y & ->). reflexivity. }
  split; [exact R1|]. intros c Hc. apply HI in Hc. apply (In_nth _ _ []) in Hc as (i & Hi & <-).
  specialize (R2 i Hi (inl (chunk_key (d_key d) (nth i reqs []))) eq_refl). cbn in R2. injection R2 as ->. apply (FIN i Hi).
Qed.

Lemma unit_local src off n c st st2 : valid c -> st (chunk_key (d_key d) c) = st2 (chunk_key (d_key d) c) ->
  snd (write_unit d src off n b0 c st) = snd (write_unit d src off n b0 c st2) /\
  fst (write_unit d src off n b0 c st) (chunk_key (d_key d) c) = fst (write_unit d src off n b0 c st2) (chunk_key (d_key d) c).
Proof.
  intros Hc E.
  destruct (@run_write_unit d ok src off n b0 c st st (fun _ => []) Hc (fun _ => eq_refl)) as (s1 & E1 & H1).
  destruct (@run_write_unit d ok src off n b0 c st2 st2 (fun _ => []) Hc (fun _ => eq_refl)) as (s2 & E2 & H2).
  destruct (confined_run (conf_write_unit ok src off n b0 Hc) (m := (st, fun _ => [])) (m' := (st2, fun _ => []))) as [A B].
  { intros l [->|[]]. cbn. now rewrite E. }
  rewrite E1, E2 in *. cbn [fst snd] in *. split; [exact A|].
  specialize (B (inl (chunk_key (d_key d) c))). cbn in B. rewrite <- H1, <- H2.
  assert (X : inl (s1 (chunk_key (d_key d) c)) = inl (s2 (chunk_key (d_key d) c)) :> option bytes + cell) by (apply B; now rewrite E).
  now injection X.
Qed.

Lemma unit_failed src off n c st : region_ok d off n -> source_ok w n src -> overlaps s b off n c ->
  steady d (plain_existing d st c) c ->
  (exists y, snd (write_unit d src off n b0 c st) = Ok y) \/ fst (write_unit d src off n b0 c st) = st.
Proof.
  intros Hreg Hsrc Hov HF. pose proof (overlaps_valid Hov) as Hc.
  destruct (prepare_steady ok Hreg Hsrc Hov HF) as [(buf' & HB & E)|(e & E)].
  - destruct (can_write (d_mode d)) eqn:Hm.
    + destruct (@write_chunk_spec d ok c buf' st Hm Hc HB) as (v & W & _).
      left. exists buf'. unfold write_unit, sbind, reading, pure. now rewrite (E _ (fill_buffer ok)), W.
    + right. unfold write_unit, sbind, reading, pure. rewrite (E _ (fill_buffer ok)). unfold write_chunk. now rewrite Hm.
  - right. unfold write_unit, sbind, reading, pure. now rewrite (E _ (fill_buffer ok)).
Qed.
Lemma unit_absent src off n c st : region_ok d off n -> source_ok w n src -> overlaps s b off n c ->
  can_write (d_mode d) = true -> st (chunk_key (d_key d) c) = None ->
  exists y, snd (write_unit d src off n b0 c st) = Ok y.
Proof.
  intros Hreg Hsrc Hov Hm E. pose proof (overlaps_valid Hov) as Hc.
  assert (HE : existing_ok d (plain_existing d st c) (prod (stored_shape d c)) None).
  { intros buf _. unfold plain_existing, chunk_exists. rewrite (handle_ok ok Hc). cbn [bind ch_key]. now rewrite E. }
  destruct (prepare_spec ok Hreg Hsrc Hov (fill_buffer ok) (I : content_ok d c None) HE) as (buf' & EP & PP).
  destruct (@write_chunk_spec d ok c buf' st Hm Hc (proj1 PP)) as (v & W & _).
  exists buf'. unfold write_unit, sbind, reading, pure. now rewrite EP, W.
Qed.

(** A write that fails half way leaves every chunk as it was, or with the file that
    the write makes of it when it succeeds. *)
Theorem chunk_atomic threads est src off n st st1 r : region_ok d off n -> source_ok w n src ->
  (forall c file, overlaps s b off n c -> st (chunk_key (d_key d) c) = Some file -> overwritable d c file) ->
  write_run d threads est src off n st st1 r ->
  forall c, overlaps s b off n c ->
  st1 (chunk_key (d_key d) c) = st (chunk_key (d_key d) c) \/
  exists st', write_request d src off n (only_file d c st) = (st', Ok tt) /\
    st1 (chunk_key (d_key d) c) = st' (chunk_key (d_key d) c).
Proof.
  intros Hreg Hsrc Hfiles Hrun c Hc.
  assert (ST : forall c, overlaps s b off n c -> steady d (plain_existing d st c) c)
    by (intros c' Hc'; apply existing_steady; eauto using overlaps_valid).
  destruct (run_cases Hreg Hsrc Hfiles Hrun) as [C1 _]. destruct (C1 c Hc) as [L|L]; [left; exact L|].
  destruct (unit_failed Hreg Hsrc Hc (ST c Hc)) as [[y Hy]|F]; [|left; rewrite L; now rewrite F].
  right. set (stc := only_file d c st).
  assert (Ekey : st (chunk_key (d_key d) c) = stc (chunk_key (d_key d) c)) by (unfold stc, only_file; now rewrite String.eqb_refl).
  destruct (unit_local src off n (overlaps_valid Hc) Ekey) as [U1 U2].
  assert (Hm : can_write (d_mode d) = true).
  { destruct (can_write (d_mode d)) eqn:Hm; [reflexivity|]. exfalso. revert Hy. unfold write_unit, sbind, reading, pure, write_chunk.
    rewrite Hm. cbn [negb]. destruct (prepare_chunk d off n c src (plain_existing d st c) b0); discriminate. }
  assert (OTHER : forall c', overlaps s b off n c' -> c' = c \/ stc (chunk_key (d_key d) c') = None).
  { intros c' Hc'. destruct (list_eq_dec N.eq_dec c' c) as [|NE]; [auto|]. right. unfold stc, only_file.
    destruct (String.eqb_spec (chunk_key (d_key d) c') (chunk_key (d_key d) c)) as [E|]; [|reflexivity].
    apply (key_inj ok) in E. contradiction. }
  assert (FC : forall c' file, overlaps s b off n c' -> stc (chunk_key (d_key d) c') = Some file -> overwritable d c' file).
  { intros c' file Hc' E. destruct (OTHER c' Hc') as [->|E2]; [|congruence]. apply Hfiles; [exact Hc|congruence]. }
  assert (STC : forall c', overlaps s b off n c' -> steady d (plain_existing d stc c') c')
    by (intros c' Hc'; apply existing_steady; eauto using overlaps_valid).
  destruct (write_exists_steady ok 1 1%Z Hreg Hsrc STC) as (st2 & r2 & R2).
  assert (OKS : forall c', overlaps s b off n c' -> exists y, snd (write_unit d src off n b0 c' stc) = Ok y).
  { intros c' Hc'. destruct (OTHER c' Hc') as [->|E2]; [exists y; congruence|]. now apply unit_absent. }
  destruct (run_all_ok Hreg Hsrc STC OKS R2) as [-> V].
  destruct (par_write_steady ok Hreg Hsrc STC R2) as (P1 & P2 & _).
  exists (fst (write_request d src off n stc)). split; [rewrite (surjective_pairing (write_request d src off n stc)); cbn [fst]; now rewrite <- P1|].
  rewrite <- (P2 eq_refl), (V c Hc), L. exact U2.
Qed.
End Fail.
