(** Loops of the sub-array functions on several threads, II: writes of plain
    datasets. *)
From Verif Require Import M_Base M_Text M_Key M_Blocking M_View M_Bytes M_N5Header M_Format
  M_Mode M_Shard M_Dataset M_Sharded M_Access M_Pool M_Parallel
  S_Array S_Grid S_Bytes S_Text S_Format S_Dataset S_Access S_File S_Pool S_Parallel
  P_Base P_Blocking P_Roi P_View P_Bytes P_Key P_Format P_Dataset P_Access P_Read P_File P_Pool P_Foreach P_Parallel.
Import List ListNotations.
Local Open Scope list_scope.
Local Open Scope N_scope.

Section PlainWrite.
Variable d : dataset.
Hypothesis ok : dataset_ok d.
Notation w := (t_width (d_type d)).
Notation s := (d_shape d).
Notation b := (d_chunks d).
Notation valid := (valid_chunk (d_shape d) (d_chunks d)).

(** ** The buffer of a chunk does not depend on the scratch buffer *)
Definition steady (rd : list cell -> outcome (bool * list cell)) (c : shape) : Prop :=
  (exists old, content_ok d c old /\ existing_ok d rd (prod (stored_shape d c)) old) \/
  (exists e, forall buf, buffer_of w (prod (stored_shape d c)) buf -> rd buf = Throw e).

Lemma prepared_unique off n c src old x y : valid c -> prepared d off n c src old x -> prepared d off n c src old y -> x = y.
Proof.
  intros Hc [[LX _] X] [[LY _] Y]. destruct (stored_props ok Hc) as (_ & _ & _ & SW & _ & _).
  apply list_eq_getN; [congruence|]. intros i Hi. rewrite LX in Hi.
  destruct (rowmajor_onto Hi SW) as (p & Hp & <-). now rewrite X, Y.
Qed.

Lemma prepare_steady off n c src rd : region_ok d off n -> source_ok w n src -> overlaps s b off n c -> steady rd c ->
  (exists buf', buffer_of w (prod (stored_shape d c)) buf' /\
     forall buf, any_buffer d buf -> prepare_chunk d off n c src rd buf = Ok buf') \/
  (exists e, forall buf, any_buffer d buf -> prepare_chunk d off n c src rd buf = Throw e).
Proof.
  intros Hreg Hsrc Hov [(old & HC & HE)|(e & He)]; pose proof (overlaps_valid Hov) as Hc.
  - left. destruct (prepare_spec ok Hreg Hsrc Hov (zero_buffer d) HC HE) as (buf' & _ & P).
    exists buf'. split; [apply P|]. intros buf Hb.
    destruct (prepare_spec ok Hreg Hsrc Hov Hb HC HE) as (buf2 & E & P2). rewrite E. f_equal.
    eapply prepared_unique; eauto.
  - destruct (coords_in_roi_exact (do_dims ok) (proj1 Hreg) (proj2 Hreg) Hov) as (r & Er & R).
    set (pad := negb (prodw (chunk_extent s b c) =? prodw b) && d_zarr d).
    assert (Hsz : (if pad then prodw b else prodw (chunk_extent s b c)) = prod (stored_shape d c)).
    { destruct (stored_props ok Hc) as (_ & _ & _ & SW & _ & _). rewrite <- (prodw_small SW).
      unfold pad, stored_shape. destruct (d_zarr d); rewrite ?andb_false_r, ?andb_true_r; [|reflexivity].
      destruct (N.eqb_spec (prodw (chunk_extent s b c)) (prodw b)) as [E|]; cbn; congruence. }
    destruct (r_complete r && negb pad) eqn:Ec.
    + left. assert (HE : existing_ok d (fun x => Ok (false, x)) (prod (stored_shape d c)) None) by (intros x _; reflexivity).
      assert (SAME : forall buf, prepare_chunk d off n c src rd buf = prepare_chunk d off n c src (fun x => Ok (false, x)) buf).
      { intros buf. unfold prepare_chunk. rewrite Er. cbn [bind]. rewrite (chunk_shape_ok ok Hc). cbn [bind].
        fold pad. rewrite Ec. reflexivity. }
      assert (HC : content_ok d c None) by exact I.
      destruct (prepare_spec ok Hreg Hsrc Hov (zero_buffer d) HC HE) as (buf' & _ & P).
      exists buf'. split; [apply P|]. intros buf Hb. rewrite SAME.
      destruct (prepare_spec ok Hreg Hsrc Hov Hb HC HE) as (buf2 & E & P2). rewrite E. f_equal.
      eapply prepared_unique; eauto.
    + right. exists e. intros buf Hb. unfold prepare_chunk. rewrite Er. cbn [bind]. rewrite (chunk_shape_ok ok Hc). cbn [bind].
      fold pad. rewrite Ec, Hsz. rewrite He; [reflexivity|]. now apply sized_buffer.
Qed.

Lemma prepare_ext off n c src rd rd' buf : (forall x, rd x = rd' x) ->
  prepare_chunk d off n c src rd buf = prepare_chunk d off n c src rd' buf.
Proof.
  intros E. unfold prepare_chunk. destruct (coords_in_roi s b c off n); cbn [bind]; auto.
  destruct (get_chunk_shape d c); cbn [bind]; auto. now rewrite E.
Qed.

(** ** Chunk files that may be there *)
Lemma header_cases file : (exists vl sz len, read_n5_header file = Ok (vl, sz, len)) \/ exists e, read_n5_header file = Throw e.
Proof. destruct (n5_header_safe file) as [(vl & sz & h & E & _)|E]; eauto 6. Qed.

(** A file that cannot be decoded, or has a variable length, is not merged. *)
Lemma existing_unreadable st c file : valid c -> st (chunk_key (d_key d) c) = Some file -> overwritable d c file ->
  file_cells d c file = None ->
  exists e, forall buf, buffer_of w (prod (stored_shape d c)) buf -> plain_existing d st c buf = Throw e.
Proof.
  intros Hc Es (F1 & F2 & F3) FC. destruct (stored_props ok Hc) as (_ & _ & _ & SW & SWW & _).
  unfold plain_existing, chunk_exists. rewrite (handle_ok ok Hc). cbn [bind ch_key]. rewrite Es. cbn [negb].
  unfold read_chunk. rewrite (handle_ok ok Hc). cbn [bind ch_key].
  rewrite (check_chunk_ok ok (c := c)) by auto. cbn [andb bind]. unfold store_read. rewrite Es.
  unfold buffer_to_data. unfold file_cells, file_parts in *. destruct (d_zarr d) eqn:Z.
  - destruct (unpack d (prod b) file) as [x|] eqn:EU; [discriminate|].
    assert (HP : file_parts d file = Some (prod b, file)) by (unfold file_parts; now rewrite Z).
    assert (EB : stored_shape d c = b) by (unfold stored_shape; now rewrite Z). rewrite EB in *.
    pose proof (@sized_buffer d (prod b) _ (zero_buffer d)) as HB0.
    pose proof (@unpack_spec d ok c b file file _ (or_intror eq_refl) Hc F1 HP HB0) as HU. rewrite EU in HU.
    destruct HU as [e He]. exists e. intros buf _. cbn [bind].
    rewrite (prodw_small (prod_chunks_small ok)). cbn [N.to_nat skipn]. change (skipn (N.to_nat 0) file) with file.
    now rewrite (decompress_throw He).
  - destruct (header_cases file) as [(vl & sz & len & EH)|(e & EH)]; rewrite EH in *; cbn [bind].
    2:{ exists e. intros buf _. reflexivity. }
    destruct vl.
    + destruct (F3 eq_refl _ _ eq_refl) as [Hsz HD]. clear F3. unfold decompress.
      assert (sz * w < W64) by nia. rewrite mulw_small by assumption.
      destruct (cd_raw (d_codec d)) eqn:ER.
      * destruct (N.ltb_spec (sz * w) (lenN (skipn (N.to_nat len) file))) as [H1|H1].
        { exists ERuntime. intros buf _. reflexivity. }
        exists ERuntime. intros buf Hb. pose proof (lenN_concat (buffer_widths Hb)) as LC. destruct Hb as [LB _]. rewrite LB in LC.
        unfold put_bytes. destruct (N.leb_spec (lenN (skipn (N.to_nat len) file)) (lenN (concat buf))) as [H2|H2]; [|nia].
        cbn [bind negb andb]. destruct (1 <? w); [|reflexivity]. unfold reverse_first.
        match goal with |- context [lenN ?y <? sz] => destruct (N.ltb_spec (lenN y) sz) as [H3|H3] end; [|reflexivity].
        exfalso. unfold lenN in *. rewrite split_cells_length in H3. lia.
      * specialize (HD eq_refl). destruct (cd_dec (d_codec d) (skipn (N.to_nat len) file) (sz * w)) as [x|e|]; [|exists e; intros buf _; reflexivity|contradiction].
        exists ERuntime. intros buf Hb. pose proof (lenN_concat (buffer_widths Hb)) as LC. destruct Hb as [LB _]. rewrite LB in LC.
        cbn [bind]. unfold put_bytes. destruct (N.leb_spec (lenN x) (lenN (concat buf))) as [H2|H2]; [|nia].
        cbn [bind negb andb]. destruct (1 <? w); [|reflexivity]. unfold reverse_first.
        match goal with |- context [lenN ?y <? sz] => destruct (N.ltb_spec (lenN y) sz) as [H3|H3] end; [|reflexivity].
        exfalso. unfold lenN in *. rewrite split_cells_length in H3. lia.
    + destruct (unpack d sz (skipn (N.to_nat len) file)) as [x|] eqn:EU; [discriminate|].
      assert (HP : file_parts d file = Some (sz, skipn (N.to_nat len) file)) by (unfold file_parts; now rewrite Z, EH).
      destruct (parts_shape Hc F1 HP) as [Hsh Hsz]. cbn zeta in Hsh, Hsz.
      set (sh0 := if sz =? prod (chunk_extent s b c) then chunk_extent s b c else b) in *. clearbody sh0. subst sz.
      pose proof (@sized_buffer d (prod sh0) _ (zero_buffer d)) as HB0.
      pose proof (@unpack_spec d ok c sh0 file _ _ Hsh Hc F1 HP HB0) as HU. rewrite EU in HU.
      destruct HU as [e He]. exists e. intros buf _. now rewrite (decompress_throw He).
Qed.

Lemma existing_steady st c : valid c ->
  (forall file, st (chunk_key (d_key d) c) = Some file -> overwritable d c file) ->
  steady (plain_existing d st c) c.
Proof.
  intros Hc HF. destruct (stored_props ok Hc) as (_ & _ & _ & SW & SWW & _).
  unfold steady, plain_existing, chunk_exists. rewrite (handle_ok ok Hc). cbn [bind ch_key].
  destruct (st (chunk_key (d_key d) c)) as [file|] eqn:Es; cbn [negb].
  2:{ left. exists None. split; [exact I|]. intros buf _. reflexivity. }
  destruct (HF _ eq_refl) as (F1 & F2 & F3). clear HF.
  destruct (file_cells d c file) as [[sh cells]|] eqn:FC.
  { left. exists (Some cells).
    assert (SH : prod sh = prod (stored_shape d c) /\ buffer_of w (prod sh) cells).
    { unfold file_cells in FC. destruct (file_parts d file) as [[sz payload]|] eqn:HP; [|discriminate].
      destruct (parts_shape Hc F1 HP) as [Hsh Hsz]. cbn zeta in Hsh, Hsz.
      set (sh0 := if sz =? prod (chunk_extent s b c) then chunk_extent s b c else b) in *.
      destruct (unpack d sz payload) as [x|] eqn:EU; [|discriminate]. injection FC as <- <-.
      split; [rewrite <- Hsz; eauto|]. clearbody sh0. subst sz.
      pose proof (@sized_buffer d (prod sh0) _ (zero_buffer d)) as HB0.
      pose proof (@unpack_spec d ok c sh0 file payload _ Hsh Hc F1 HP HB0) as HU. rewrite EU in HU. destruct HU as [_ HB].
      destruct (d_zarr d); [exact HB|]. destruct HB as [LB FB]. split; [unfold lenN in *; rewrite map_length; exact LB|].
      apply Forall_map. eapply Forall_impl; [|exact FB]. intros e [Le Be]. split.
      - unfold lenN in *. now rewrite rev_length.
      - now apply Forall_rev. }
    destruct SH as [SH1 SH2]. split; [cbn; now rewrite <- SH1|]. intros buf Hb.
    rewrite (@read_chunk_file d ok c file st sh cells buf Hc Es F1 FC) by now rewrite SH1. reflexivity. }
  right. destruct (existing_unreadable Hc Es (conj F1 (conj F2 F3)) FC) as (e & He). exists e. intros buf Hb.
  specialize (He buf Hb). unfold plain_existing, chunk_exists in He. rewrite (handle_ok ok Hc) in He. cbn [bind ch_key] in He.
  rewrite Es in He. exact He.
Qed.

(** A write of one chunk does not depend on the scratch buffer. *)
Lemma write_unit_steady src off n c st : region_ok d off n -> source_ok w n src -> overlaps s b off n c ->
  steady (plain_existing d st c) c ->
  exists st' o, (forall buf, any_buffer d buf -> write_unit d src off n buf c st = (st', o)) /\
    match o with Ok x => any_buffer d x | Throw _ => True | UB => False end.
Proof.
  intros Hreg Hsrc Hov HF. pose proof (overlaps_valid Hov) as Hc.
  destruct (prepare_steady Hreg Hsrc Hov HF) as [(buf' & HB & E)|(e & E)].
  - destruct (can_write (d_mode d)) eqn:Hm.
    + destruct (@write_chunk_spec d ok c buf' st Hm Hc HB) as (v & W & _).
      exists (set_key st (chunk_key (d_key d) c) v), (Ok buf'). split; [|eexists; exact HB].
      intros buf Hb. unfold write_unit, sbind, reading, pure. now rewrite E, W.
    + exists st, (Throw EInvalidArgument). split; [|exact I]. intros buf Hb.
      unfold write_unit, sbind, reading, pure. rewrite E by exact Hb. unfold write_chunk. now rewrite Hm.
  - exists st, (Throw e). split; [|exact I]. intros buf Hb. unfold write_unit, sbind, reading, pure. now rewrite E.
Qed.

(** ** The code of a thread *)
Lemma run_write_code kc key v k st2 x : run (write_code kc key v k) (st2, x) =
  match store_write kc key v st2 with
  | (_, Ok _) => run k (set_key (set_key st2 key (Some [])) key (Some v), x)
  | (_, Throw e) => ((st2, x), Throw e)
  | (_, UB) => ((st2, x), UB)
  end.
Proof. unfold write_code, store_write, pure. destruct (_ && _); reflexivity. Qed.

Lemma set_set st key u v k : set_key (set_key st key u) key v k = set_key st key v k.
Proof. unfold set_key. destruct (String.eqb k key); reflexivity. Qed.
Lemma set_eq st st2 key v : (forall k, st2 k = st k) -> forall k, set_key st2 key v k = set_key st key v k.
Proof. intros H k. unfold set_key. destruct (String.eqb k key); auto. Qed.

Lemma run_write_unit src off n buf c st st2 x : valid c -> (forall k, st2 k = st k) ->
  exists st2', run (write_unit_code d src off n c buf) (st2, x) =
      ((st2', x), snd (write_unit d src off n buf c st)) /\
    (forall k, st2' k = fst (write_unit d src off n buf c st) k).
Proof.
  intros Hc HS. unfold write_unit_code, write_unit, sbind, reading, pure. rewrite (handle_ok ok Hc). cbn [plet ch_key].
  unfold pread. cbn [run fst snd]. rewrite HS.
  assert (EX : prepare_chunk d off n c src (existing_from d c (st (chunk_key (d_key d) c)) (st (chunk_key (d_key d) c))) buf =
               prepare_chunk d off n c src (plain_existing d st c) buf).
  { apply prepare_ext. intros y. unfold existing_from, plain_existing, chunk_exists, read_chunk, only, store_read.
    rewrite (handle_ok ok Hc). reflexivity. }
  rewrite EX. clear EX. destruct (prepare_chunk d off n c src (plain_existing d st c) buf) as [buf'|e|]; cbn [plet run fst snd].
  2,3: exists st2; auto.
  unfold write_chunk_code, write_chunk. destruct (can_write (d_mode d)); cbn [negb].
  2:{ cbn [run fst snd pure]. exists st2; auto. }
  unfold sbind, pure. rewrite (handle_ok ok Hc). cbn [plet].
  rewrite (check_chunk_ok ok (c := c)) by auto. cbn [andb plet ch_bounded ch_key].
  destruct (data_to_buffer _ _ _ _ _ _ _ _ _) as [[v|]|e|]; cbn [plet run fst snd].
  - rewrite run_write_code. rewrite !(store_write_ok ok). cbn [run fst snd]. eexists. split; [reflexivity|].
    intros k. rewrite set_set. now apply set_eq.
  - unfold pset. cbn [run fst snd store_erase]. eexists. split; [reflexivity|]. now apply set_eq.
  - exists st2; auto.
  - exists st2; auto.
Qed.

Lemma run_write_fold src off n us : (forall c, In c us -> valid c) -> forall buf st st2 x, (forall k, st2 k = st k) ->
  exists st2', run (batch_prog (fun _ => write_unit_code d src off n) 0 us buf) (st2, x) =
      ((st2', x), snd (foldS (write_unit d src off n) us buf st)) /\
    (forall k, st2' k = fst (foldS (write_unit d src off n) us buf st) k).
Proof.
  induction us as [|c us IH]; intros Hus buf st st2 x HS; cbn [batch_prog foldS].
  - exists st2. split; [reflexivity|exact HS].
  - rewrite run_bind. destruct (@run_write_unit src off n buf c st st2 x (Hus c (or_introl eq_refl)) HS) as (st3 & -> & H3).
    unfold sbind. destruct (write_unit d src off n buf c st) as [st1 [buf1|e|]]; cbn [fst snd] in *.
    + destruct (IH (fun c' H => Hus c' (or_intror H)) buf1 st1 st3 x H3) as (st4 & E & H4). exists st4. split; auto.
    + exists st3. auto.
    + exists st3. auto.
Qed.

Definition one_key (k : string) (l : ploc) : Prop := l = inl k.

Lemma conf_write_code kc key v k (W : ploc -> Prop) : W (inl key) -> pconf W (fun _ => False) k ->
  pconf W (fun _ => False) (write_code kc key v k).
Proof. intros HW HC. unfold write_code. destruct (_ && _); [constructor|]. now repeat apply conf_pset. Qed.

Lemma conf_write_unit src off n c buf : valid c ->
  pconf (one_key (chunk_key (d_key d) c)) (fun _ => False) (write_unit_code d src off n c buf).
Proof.
  intros Hc. unfold write_unit_code. rewrite (handle_ok ok Hc). cbn [plet ch_key].
  apply conf_pread; [left; reflexivity|]. intros f1. apply conf_pread; [left; reflexivity|]. intros f2.
  apply conf_plet. intros buf' _. unfold write_chunk_code. destruct (negb _); [constructor|].
  rewrite (handle_ok ok Hc). cbn [plet ch_key]. apply conf_plet. intros _ _. apply conf_plet. intros ob _.
  destruct ob as [v|].
  - apply conf_write_code; [reflexivity|constructor].
  - apply conf_pset; [reflexivity|constructor].
Qed.

Section Units.
Variables (src : source) (off n : shape) (st : store) (x : N -> cell) (reqs : list shape).
Hypothesis Hreg : region_ok d off n.
Hypothesis Hsrc : source_ok w n src.
Hypothesis Hold : forall c, overlaps s b off n c -> steady (plain_existing d st c) c.
Hypothesis Hreqs : forall c, In c reqs -> overlaps s b off n c.
Hypothesis Hnd : NoDup reqs.
Notation unit_code := (fun (_ i : nat) => write_unit_code d src off n (nth i reqs [])).
Notation b0 := (repeat (d_fill d) (N.to_nat (prodw b))).

Lemma write_units_ok : tasks_ok pget (length reqs) (fun i tid => unit_code tid i) (any_buffer d)
    (fun i => one_key (chunk_key (d_key d) (nth i reqs []))) (fun _ => False) (st, x)
    (fun i => fst (run (unit_code 0%nat i b0) (st, x)))
    (fun i => ended (snd (run (unit_code 0%nat i b0) (st, x)))).
Proof.
  assert (HN : forall i, (i < length reqs)%nat -> overlaps s b off n (nth i reqs [])).
  { intros i Hi. apply Hreqs, nth_In, Hi. }
  split.
  - intros i j l Hi Hj Hij -> E. unfold one_key in E. injection E as E. apply (key_inj ok) in E.
    apply Hij. eapply (proj1 (NoDup_nth reqs [])); eauto.
  - intros i l Hi _ [].
  - intros i tid buf Hi. apply conf_write_unit. eapply overlaps_valid; eauto.
  - intros i tid buf Hi Hb. set (c := nth i reqs []). pose proof (overlaps_valid (HN i Hi)) as Hc.
    destruct (@write_unit_steady src off n c st Hreg Hsrc (HN i Hi) (Hold (HN i Hi))) as (st' & o & E & HO).
    destruct (@run_write_unit src off n buf c st st x Hc (fun _ => eq_refl)) as (s1 & -> & H1).
    destruct (@run_write_unit src off n b0 c st st x Hc (fun _ => eq_refl)) as (s2 & -> & H2).
    rewrite (E buf Hb) in *. rewrite (E b0 (fill_buffer ok)) in *. cbn [fst snd] in *. split.
    + intros l _. destruct l as [k|a]; cbn; [|reflexivity]. now rewrite H1, H2.
    + destruct o as [y|e|]; cbn; auto.
Qed.

Lemma keys_dec l : (exists i, (i < length reqs)%nat /\ one_key (chunk_key (d_key d) (nth i reqs [])) l) \/
  (forall i, (i < length reqs)%nat -> ~ one_key (chunk_key (d_key d) (nth i reqs [])) l).
Proof.
  destruct l as [k|a]; [|right; intros i _ E; discriminate E].
  destruct (in_dec String.string_dec k (map (chunk_key (d_key d)) reqs)) as [H|H].
  - left. apply in_map_iff in H as (c & <- & Hc). apply (In_nth _ _ []) in Hc as (i & Hi & <-). exists i. split; [exact Hi|reflexivity].
  - right. intros i Hi E. injection E as ->. apply H. apply in_map, nth_In, Hi.
Qed.
End Units.

Lemma par_write_steady threads est src off n st st1 r : region_ok d off n -> source_ok w n src ->
  (forall c, overlaps s b off n c -> steady (plain_existing d st c) c) ->
  write_run d threads est src off n st st1 r ->
  r = snd (write_request d src off n st) /\
  (r = Ok tt -> forall k, st1 k = fst (write_request d src off n st) k) /\
  (forall k, (forall c, overlaps s b off n c -> k <> chunk_key (d_key d) c) -> st1 k = st k) /\ r <> UB.
Proof.
  intros Hreg Hsrc Hfiles H. destruct (begin_request_ok ok Hreg) as (reqs & E & ND & _ & HI).
  destruct H as [reqs' m1 r E' H|e E']; [|congruence]. assert (reqs' = reqs) by congruence. subst reqs'. clear E'.
  pose proof (@write_units_ok src off n st (fun _ => []) reqs Hreg Hsrc Hfiles (fun c => proj1 (HI c)) ND) as U.
  destruct (schedule_independent U (@left_over_buffer d) (keys_dec reqs) (fill_buffer ok) H) as (S1 & S2 & S3 & S4).
  pose proof (@run_units _ _ _ (write_unit_code d src off n) reqs [] reqs 0%nat
    (repeat (d_fill d) (N.to_nat (prodw b))) (st, fun _ => []) eq_refl) as RU.
  unfold foreach_sequential in *. rewrite RU in S1, S2. clear RU.
  destruct (@run_write_fold src off n reqs (fun c Hc => overlaps_valid (proj1 (HI c) Hc)) (repeat (d_fill d) (N.to_nat (prodw b)))
     st st (fun _ => []) (fun _ => eq_refl)) as (st2 & E2 & H2).
  rewrite E2 in S1, S2. cbn [fst snd] in S1, S2. clear E2.
  unfold write_request, write_plain, sbind, pure. rewrite E.
  destruct (foldS (write_unit d src off n) reqs (repeat (d_fill d) (N.to_nat (prodw b))) st) as [st' [y|e|]]; cbn [fst snd ended] in *.
  - split; [exact S1|]. split; [|split; [|exact S4]].
    + intros HO k. specialize (S2 HO (inl k)). cbn in S2. injection S2 as ->. apply H2.
    + intros k Hk. assert (X : pget m1 (inl k) = pget (st, fun _ => []) (inl k)).
      { apply S3. intros i Hi Ei. injection Ei as ->. eapply Hk; [|reflexivity]. apply HI, nth_In, Hi. }
      cbn in X. congruence.
  - split; [exact S1|]. split; [|split; [|exact S4]].
    + intros ->. discriminate.
    + intros k Hk. assert (X : pget m1 (inl k) = pget (st, fun _ => []) (inl k)).
      { apply S3. intros i Hi Ei. injection Ei as ->. eapply Hk; [|reflexivity]. apply HI, nth_In, Hi. }
      cbn in X. congruence.
  - congruence.
Qed.

Theorem par_write threads est src off n st st1 r : region_ok d off n -> source_ok w n src ->
  (forall c file, overlaps s b off n c -> st (chunk_key (d_key d) c) = Some file -> overwritable d c file) ->
  write_run d threads est src off n st st1 r ->
  r = snd (write_request d src off n st) /\
  (r = Ok tt -> forall k, st1 k = fst (write_request d src off n st) k) /\
  (forall k, (forall c, overlaps s b off n c -> k <> chunk_key (d_key d) c) -> st1 k = st k) /\ r <> UB.
Proof.
  intros Hreg Hsrc HF. apply par_write_steady; auto. intros c Hc. apply existing_steady; eauto using overlaps_valid.
Qed.

(** A dataset with known contents. *)
Lemma holds_steady st C c : holds d st C -> valid c -> steady (plain_existing d st c) c.
Proof. intros H Hc. left. exists (C c). exact (holds_existing ok H Hc). Qed.
End PlainWrite.
