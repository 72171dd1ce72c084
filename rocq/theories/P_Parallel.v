(** Loops of the sub-array functions on several threads, I: loops in general, and
    the code of a thread against the single threaded model. *)
From Verif Require Import M_Base M_Text M_Key M_Blocking M_View M_Bytes M_N5Header M_Format
  M_Mode M_Shard M_Dataset M_Sharded M_Access M_Pool M_Parallel
  S_Array S_Grid S_Bytes S_Text S_Format S_Dataset S_Access S_File S_Pool S_Parallel
  P_Base P_Blocking P_Roi P_View P_Dataset P_Access P_Read P_File P_Pool P_Foreach.
Import List ListNotations.
Local Open Scope list_scope.
Local Open Scope N_scope.

(** ** Any loop of well-behaved units *)
Section Loop.
Variables (M B loc V : Type) (get : M -> loc -> V).
Variables (f : nat -> nat -> B -> prog M B) (junk I : B -> Prop) (cnt : nat).
Variables (F : nat -> loc -> Prop) (R : loc -> Prop) (m0 : M) (fin : nat -> M) (res : nat -> outcome unit).
Hypothesis uok : tasks_ok get cnt (fun i tid => f tid i) I F R m0 fin res.
Hypothesis junk_ok : forall b, junk b -> I b.
Hypothesis F_dec : forall l, (exists i, (i < cnt)%nat /\ F i l) \/ (forall i, (i < cnt)%nat -> ~ F i l).

Lemma first_error_none rs : first_error rs = None -> forall o, In o rs -> (forall e, o <> Throw e).
Proof.
  induction rs as [|x rs IH]; cbn; intros H o Ho e0; [destruct Ho|].
  destruct Ho as [<-|Ho]; [intros ->; discriminate|]. destruct x; try discriminate; now apply IH.
Qed.

Theorem schedule_independent threads est b0 m1 r : I b0 ->
  foreach_run threads est cnt f junk b0 m0 m1 r ->
  r = ended (snd (run (foreach_sequential f (seq 0 cnt) b0) m0)) /\
  (r = Ok tt -> forall l, get m1 l = get (fst (run (foreach_sequential f (seq 0 cnt) b0) m0)) l) /\
  (forall l, (forall i, (i < cnt)%nat -> ~ F i l) -> get m1 l = get m0 l) /\ r <> UB.
Proof.
  intros Hb H.
  destruct (run (foreach_sequential f (seq 0 cnt) b0) m0) as [ms os] eqn:E. cbn [fst snd].
  assert (S : foreach_run 1 est cnt f junk b0 m0 ms (ended os)) by (eapply run_sequential; [lia|exact E]).
  destruct (foreach_run_result uok junk_ok Hb H) as (R1 & O1 & _).
  destruct (foreach_run_result uok junk_ok Hb S) as (R2 & _ & _).
  split; [congruence|]. split; [|split; [exact O1|rewrite R1; destruct (first_error _); discriminate]].
  intros HO. assert (RO : forall i, (i < cnt)%nat -> res i = Ok tt).
  { intros i Hi. pose proof (res_not_UB uok (ex_intro _ _ Hb) Hi) as NU.
    assert (FE : first_error (map res (seq 0 cnt)) = None).
    { destruct (first_error _); [|reflexivity]. rewrite R1 in HO. discriminate. }
    destruct (res i) as [[]|e|] eqn:Er; [reflexivity| |congruence]. exfalso.
    eapply (first_error_none FE); [|exact Er]. apply in_map, in_seq. lia. }
  destruct (foreach_run_ok uok junk_ok Hb H RO) as (_ & A1 & U1).
  destruct (foreach_run_ok uok junk_ok Hb S RO) as (_ & A2 & U2).
  intros l. destruct (F_dec l) as [(i & Hi & Fi)|Hn].
  - rewrite (A1 i Hi l Fi). symmetry. apply (A2 i Hi l Fi).
  - rewrite (U1 l Hn). symmetry. apply (U2 l Hn).
Qed.
End Loop.

Lemma skipn_next A k : forall (l : list A) x r, skipn k l = x :: r -> skipn (S k) l = r.
Proof.
  induction k as [|k IH]; intros [|y l] x r E; cbn in *; try discriminate; [congruence|].
  now apply IH in E.
Qed.

(** Indices of units, and units. *)
Lemma run_units M B A (g : A -> B -> prog M B) (us : list A) u0 us' : forall k b m, skipn k us = us' ->
  run (batch_prog (fun _ i => g (nth i us u0)) 0 (seq k (length us')) b) m =
  run (batch_prog (fun _ => g) 0 us' b) m.
Proof.
  induction us' as [|u us' IH]; intros k b m E; [reflexivity|]. cbn [length seq batch_prog]. rewrite !run_bind.
  assert (E1 : nth k us u0 = u).
  { rewrite <- (firstn_skipn k us) at 1. rewrite E. rewrite app_nth2; rewrite firstn_length;
      assert (k < length us)%nat by (destruct (Nat.lt_ge_cases k (length us)); [assumption|rewrite skipn_all2 in E by lia; discriminate]);
      [|lia]. replace (k - Nat.min k (length us))%nat with 0%nat by lia. reflexivity. }
  rewrite E1. destruct (run (g u b) m) as [m' [b'|e|]]; try reflexivity. apply IH.
  eapply skipn_next; eauto.
Qed.

(** ** The memory of the sub-array functions *)
Notation ploc := (string + N)%type.
Definition pget (m : pmem) (l : ploc) : option bytes + cell :=
  match l with inl k => inl (fst m k) | inr a => inr (snd m a) end.
Notation pconf := (confined (B := list cell) pget).

Lemma conf_plet W R A (o : outcome A) k : (forall a, o = Ok a -> pconf W R (k a)) -> pconf W R (plet o k).
Proof. destruct o; cbn; intros H; [now apply H|constructor|constructor]. Qed.
Lemma conf_pread (W R : ploc -> Prop) key k : either W R (inl key) -> (forall v, pconf W R (k v)) -> pconf W R (pread key k).
Proof.
  intros HK HC. constructor; cbn [fst snd]; auto.
  intros m m' A. specialize (A _ HK). cbn in A. split; [congruence|auto].
Qed.
Lemma conf_pset (W R : ploc -> Prop) key v k : W (inl key) -> pconf W R k -> pconf W R (pset key v k).
Proof.
  intros HK HC. constructor; cbn [fst snd]; auto.
  - intros m m' _. split; [reflexivity|]. intros [k'|a]; cbn; [|auto].
    unfold set_key. destruct (String.eqb_spec k' key); [reflexivity|auto].
  - intros m [k'|a] H; cbn; [|reflexivity]. unfold set_key.
    destruct (String.eqb_spec k' key) as [->|]; [contradiction|reflexivity].
Qed.
Lemma conf_pout (W R : ploc -> Prop) a v k : W (inr a) -> pconf W R k -> pconf W R (pout a v k).
Proof.
  intros HK HC. constructor; cbn [fst snd]; auto.
  - intros m m' _. split; [reflexivity|]. intros [k'|a']; cbn; [auto|].
    destruct (N.eqb_spec a' a); [reflexivity|auto].
  - intros m [k'|a'] H; cbn; [reflexivity|].
    destruct (N.eqb_spec a' a) as [->|]; [contradiction|reflexivity].
Qed.

Definition view_addr (dv : view) (i : shape) : N := v_off dv + flat_offset i (v_strides dv).

Lemma conf_pcopy (W R : ploc -> Prop) size src sv dv idx k : (forall i, In i idx -> W (inr (view_addr dv i))) ->
  pconf W R k -> pconf W R (pcopy size src sv dv idx k).
Proof.
  intros HI HC. induction idx as [|i r IH]; cbn; [exact HC|]. apply conf_plet. intros v _.
  destruct (_ <? size); [|constructor]. apply conf_pout; [apply HI; now left|]. apply IH. intros j Hj. apply HI. now right.
Qed.
Lemma conf_pfill (W R : ploc -> Prop) size dv v idx k : (forall i, In i idx -> W (inr (view_addr dv i))) ->
  pconf W R k -> pconf W R (pfill size dv v idx k).
Proof.
  intros HI HC. induction idx as [|i r IH]; cbn; [exact HC|].
  destruct (_ <? size); [|constructor]. apply conf_pout; [apply HI; now left|]. apply IH. intros j Hj. apply HI. now right.
Qed.

Lemma indices_coords sh : indices sh = coords sh.
Proof.
  induction sh as [|n r IH]; cbn [indices coords]; [reflexivity|]. rewrite IH.
  assert (H : forall m a, flat_map (fun i => map (fun x => N.of_nat i :: x) (coords r)) (seq a m) =
                          flat_map (fun x => map (cons x) (coords r)) (rangeN (N.of_nat a) m)).
  { induction m as [|m IHm]; intros a; cbn [seq rangeN flat_map]; [reflexivity|]. rewrite IHm.
    f_equal. do 2 f_equal. lia. }
  apply H.
Qed.

(** ** The output array by address, and as a list *)
Lemma setN_lists o l a v : lists o l -> a < lenN l ->
  exists l', setN l a v = Ok l' /\ lenN l' = lenN l /\ lists (fun a' => if a' =? a then v else o a') l'.
Proof.
  intros H Ha. rewrite setN_ok by exact Ha. eexists. split; [reflexivity|].
  assert (L : lenN (set_nth (N.to_nat a) l v) = lenN l) by (unfold lenN; now rewrite set_nth_length).
  split; [exact L|]. intros a' Ha'. rewrite L in Ha'. 
  destruct (N.eqb_spec a' a) as [->|Hn]; [now apply getN_set_same|]. rewrite getN_set_other by auto. now apply H.
Qed.

(** Element-wise copies in a thread do what [writes] does to a list. *)
Lemma run_pcopy src sv dv idx k : forall st o l, lists o l ->
  match writes (view_addr dv) (fun i => getN src (view_addr sv i)) idx l with
  | Ok l' => lenN l' = lenN l /\ exists o', lists o' l' /\
      run (pcopy (lenN l) src sv dv idx k) (st, o) = run k (st, o')
  | Throw _ => False
  | UB => True
  end.
Proof.
  induction idx as [|i r IH]; intros st o l HL; cbn.
  - split; [reflexivity|]. exists o. split; [exact HL|reflexivity].
  - fold (view_addr sv i) (view_addr dv i).
    destruct (getN src (view_addr sv i)) as [v|e|] eqn:EG; cbn [bind plet].
    + destruct (N.ltb_spec (view_addr dv i) (lenN l)) as [Ha|Ha].
      * destruct (setN_lists v HL Ha) as (l1 & E1 & L1 & H1). rewrite E1. cbn [bind].
        specialize (IH st _ _ H1). unfold writes in IH. destruct (foldM _ r l1) as [l'|e|]; auto.
        destruct IH as (L2 & o' & H2 & E2). split; [congruence|]. exists o'. split; [exact H2|].
        rewrite L1 in E2. exact E2.
      * unfold setN. destruct (N.ltb_spec (view_addr dv i) (lenN l)); [lia|]. cbn. exact Logic.I.
    + unfold getN in EG. destruct (_ <? _); [destruct (nth_error _ _)|]; discriminate.
    + exact Logic.I.
Qed.
Lemma run_pfill dv v idx k : forall st o l, lists o l ->
  match writes (view_addr dv) (fun _ => Ok v) idx l with
  | Ok l' => lenN l' = lenN l /\ exists o', lists o' l' /\
      run (pfill (lenN l) dv v idx k) (st, o) = run k (st, o')
  | Throw _ => False
  | UB => True
  end.
Proof.
  induction idx as [|i r IH]; intros st o l HL; cbn.
  - split; [reflexivity|]. exists o. split; [exact HL|reflexivity].
  - fold (view_addr dv i).
    destruct (N.ltb_spec (view_addr dv i) (lenN l)) as [Ha|Ha].
    + destruct (setN_lists v HL Ha) as (l1 & E1 & L1 & H1). rewrite E1. cbn [bind].
      specialize (IH st _ _ H1). unfold writes in IH. destruct (foldM _ r l1) as [l'|e|]; auto.
      destruct IH as (L2 & o' & H2 & E2). split; [congruence|]. exists o'. split; [exact H2|].
      rewrite L1 in E2. exact E2.
    + unfold setN. destruct (N.ltb_spec (view_addr dv i) (lenN l)); [lia|]. cbn. exact Logic.I.
Qed.

Lemma copy_view_code (src l : list cell) sv dv : length (v_strides sv) = length (v_shape dv) ->
  length (v_strides dv) = length (v_shape dv) ->
  copy_view src sv l dv = writes (view_addr dv) (fun i => getN src (view_addr sv i)) (indices (v_shape dv)) l.
Proof.
  intros H1 H2. rewrite copy_view_writes, indices_coords by assumption. unfold view_addr, writes.
  generalize (coords (v_shape dv)). intros cs. revert l. induction cs as [|c cs IH]; intros l; cbn; [reflexivity|].
  rewrite !flat_offset_lin. destruct (getN src _); cbn [bind]; auto. destruct (setN l _ _); cbn [bind]; auto.
Qed.
Lemma fill_view_code v (l : list cell) dv : length (v_strides dv) = length (v_shape dv) ->
  fill_view l dv v = writes (view_addr dv) (fun _ => Ok v) (indices (v_shape dv)) l.
Proof.
  intros H2. rewrite fill_view_writes, indices_coords by assumption. unfold view_addr, writes.
  generalize (coords (v_shape dv)). intros cs. revert l. induction cs as [|c cs IH]; intros l; cbn; [reflexivity|].
  rewrite !flat_offset_lin. destruct (setN l _ _); cbn [bind]; auto.
Qed.

(** ** Plain reads *)
Section PlainRead.
Variable d : dataset.
Hypothesis ok : dataset_ok d.
Notation w := (t_width (d_type d)).
Notation s := (d_shape d).
Notation b := (d_chunks d).
Notation valid := (valid_chunk (d_shape d) (d_chunks d)).

(** The locations of the output array that belong to chunks [cs]. *)
Definition out_locs (ov : view) (off : shape) (cs : list shape) (l : ploc) : Prop :=
  match l with
  | inl _ => False
  | inr a => exists i, in_shape (v_shape ov) i /\ In (chunk_of b (vadd off i)) cs /\ a = out_addr ov i
  end.
Definition all_keys (l : ploc) : Prop := match l with inl _ => True | inr _ => False end.

Lemma roi_addr ov off c r i : region_ok d off (v_shape ov) -> length (v_strides ov) = length (v_shape ov) ->
  valid c -> roi_exact s b c off (v_shape ov) (r_off_in_req r) (r_shape r) (r_off_in_chunk r) (r_complete r) ->
  In i (indices (r_shape r)) ->
  out_locs ov off [c] (inr (view_addr (subview ov (r_off_in_req r) (r_shape r)) i)).
Proof.
  intros Hreg V1 Hc R Hi. rewrite indices_coords in Hi. apply coords_In in Hi.
  destruct (roi_facts ok Hreg Hc R) as (F1 & F2 & F3 & F4).
  exists (vadd (r_off_in_req r) i). split; [now apply (sub_in_shape F1)|]. split.
  - left. symmetry. rewrite <- (F3 i Hi). apply (elem_unique ok Hc).
    apply (sub_in_shape (re_in_chunk R)). exact Hi.
  - unfold view_addr. rewrite flat_offset_lin. now apply (out_sub F1).
Qed.

Lemma run_read_code ov off st c buf l o : region_ok d off (v_shape ov) ->
  length (v_strides ov) = length (v_shape ov) -> overlaps s b off (v_shape ov) c -> lists o l ->
  match read_unit d st ov off (v_shape ov) (buf, l) c with
  | Ok (buf', l') => lenN l' = lenN l /\ exists o', lists o' l' /\
      run (read_code d (lenN l) ov off (v_shape ov) c buf) (st, o) = ((st, o'), Ok buf')
  | Throw e => run (read_code d (lenN l) ov off (v_shape ov) c buf) (st, o) = ((st, o), Throw e)
  | UB => True
  end.
Proof.
  intros Hreg V1 Hovl HL. pose proof (overlaps_valid Hovl) as Hc.
  destruct (coords_in_roi_exact (do_dims ok) (proj1 Hreg) (proj2 Hreg) Hovl) as (r & Er & R).
  destruct (roi_facts ok Hreg Hc R) as (F1 & F2 & _ & _). destruct (sub_length F1) as [L1 L2].
  unfold read_unit, read_code. rewrite Er. cbn [bind plet].
  unfold chunk_exists, read_raw_chunk. rewrite (handle_ok ok Hc). cbn [bind plet ch_key]. unfold pread, only, store_read. cbn [run fst snd].
  destruct (st (chunk_key (d_key d) c)) as [file|] eqn:Es; cbn [negb].
  2:{ rewrite fill_view_code by (cbn; lia).
      pose proof (@run_pfill (subview ov (r_off_in_req r) (r_shape r)) (d_fill d) (indices (r_shape r)) (Ret (Ok buf)) st o l HL) as U.
      cbn [v_shape subview]. destruct (writes _ _ _ l) as [l'|e|]; cbn [bind]; [|contradiction|exact Logic.I].
      destruct U as (L & o' & H & E). split; [exact L|]. exists o'. split; [exact H|]. exact E. }
  cbn [run plet fst snd]. rewrite ?Es. unfold decode_chunk. rewrite (chunk_shape_ok ok Hc). cbn [bind].
  set (hdr := if d_zarr d then Ok (prodw b, 0) else _). clearbody hdr. destruct hdr as [[sz len]|e|]; cbn [bind plet]; [|reflexivity|exact Logic.I].
  set (csz := if sz =? _ then _ else _). set (csh := if sz =? _ then chunk_extent s b c else b).
  assert (LC : length csh = length (r_shape r)).
  { unfold csh. destruct (sub_length (re_in_chunk R)) as [Q1 Q2].
    destruct (extent_props ok Hc) as (_ & _ & E3 & _). apply all2_length in E3. destruct (_ =? _); lia. }
  set (buf1 := if csz =? lenN buf then _ else _).
  destruct (decompress _ _ _ buf1 csz) as [buf2|e|]; cbn [bind plet]; [|reflexivity|exact Logic.I].
  set (br := if negb (d_zarr d) && _ then _ else _).
  destruct br as [buf3|e|] eqn:Eb; cbn [bind plet fst snd]; [|reflexivity|exact Logic.I].
  rewrite copy_view_code.
  - pose proof (@run_pcopy buf3 (subview (make_view csh) (r_off_in_chunk r) (r_shape r))
      (subview ov (r_off_in_req r) (r_shape r)) (indices (r_shape r)) (Ret (Ok buf3)) st o l HL) as U.
    cbn [v_shape subview]. destruct (writes _ _ _ l) as [l'|e|]; cbn [bind]; [|contradiction|exact Logic.I].
    destruct U as (L & o' & H & E). split; [exact L|]. exists o'. split; [exact H|]. exact E.
  - cbn. rewrite c_strides_length. exact LC.
  - cbn. lia.
Qed.

Lemma conf_read_code ov off c buf size : region_ok d off (v_shape ov) ->
  length (v_strides ov) = length (v_shape ov) -> overlaps s b off (v_shape ov) c ->
  pconf (out_locs ov off [c]) all_keys (read_code d size ov off (v_shape ov) c buf).
Proof.
  intros Hreg V1 Hovl. pose proof (overlaps_valid Hovl) as Hc.
  destruct (coords_in_roi_exact (do_dims ok) (proj1 Hreg) (proj2 Hreg) Hovl) as (r & Er & R).
  unfold read_code. apply conf_plet. intros r' Er'. assert (r' = r) by congruence. subst r'. clear Er'.
  apply conf_plet. intros h _. apply conf_pread; [right; exact Logic.I|]. intros f.
  apply conf_plet. intros ex _. destruct (negb ex).
  - apply conf_pfill; [|constructor]. intros i Hi. now apply roi_addr.
  - apply conf_pread; [right; exact Logic.I|]. intros f2. apply conf_plet. intros data _.
    apply conf_plet. intros e _. apply conf_pcopy; [|constructor]. intros i Hi. now apply roi_addr.
Qed.

(** An exception does not depend on the buffer or on the output array. *)
Lemma writes_no_throw (A : Type) addr f cs (l : list A) e : (forall c e, f c <> Throw e) -> writes addr f cs l <> Throw e.
Proof.
  intros Hf. revert l. induction cs as [|c cs IH]; intros l; cbn; [discriminate|].
  destruct (f c) as [v|e'|] eqn:E; cbn [bind]; [|exfalso; eapply Hf; eauto|discriminate].
  unfold setN. destruct (_ <? _); cbn [bind]; [apply IH|discriminate].
Qed.
Lemma decompress_throw cd wd p buf n e : decompress cd wd p buf n = Throw e ->
  forall buf', decompress cd wd p buf' n = Throw e.
Proof.
  unfold decompress. intros H buf'. destruct (cd_raw cd).
  - destruct (_ <? _); [exact H|]. unfold put_bytes in H. destruct (_ <=? _); discriminate.
  - destruct (cd_dec cd p _) as [x|e'|]; cbn [bind] in *; [|exact H|exact H].
    unfold put_bytes in H. destruct (_ <=? _); discriminate.
Qed.

Lemma copy_view_no_throw (src l : list cell) sv dv e : copy_view src sv l dv <> Throw e.
Proof.
  unfold copy_view. destruct (v_shape dv) as [|n0 sh].
  { destruct (getN src _) eqn:E; cbn [bind]; [unfold setN; destruct (_ <? _); discriminate| |discriminate].
    exfalso. eapply getN_not_throw; eauto. }
  destruct (_ || _); [discriminate|]. generalize (map (fun _ : N => 0) (removelast (n0 :: sh))) as idx.
  generalize (N.to_nat (fold_left N.mul (removelast (n0 :: sh)) 1)) as k. intros k. revert l.
  assert (RUN : forall so ss d_o ds cnt k l, copy_run src so ss d_o ds k cnt l <> Throw e).
  { intros so ss d_o ds cnt. induction cnt as [|cnt IH]; intros k' l; cbn; [discriminate|].
    destruct (getN src _) eqn:E; cbn [bind]; [|exfalso; eapply getN_not_throw; eauto|discriminate].
    unfold setN. destruct (_ <? _); cbn [bind]; [apply IH|discriminate]. }
  induction k as [|k IH]; intros l idx; cbn [copy_runs]; [discriminate|].
  match goal with |- bind ?x _ <> _ => assert (HX : x <> Throw e) by (destruct (_ && _); apply RUN); destruct x as [y|e'|] end;
    cbn [bind]; [apply IH|congruence|discriminate].
Qed.
Lemma fill_view_no_throw (l : list cell) dv v e : fill_view l dv v <> Throw e.
Proof.
  unfold fill_view. destruct (v_shape dv) as [|n0 sh]; [unfold setN; destruct (_ <? _); discriminate|].
  destruct (_ <? _); [discriminate|]. generalize (map (fun _ : N => 0) (removelast (n0 :: sh))) as idx.
  generalize (N.to_nat (fold_left N.mul (removelast (n0 :: sh)) 1)) as k. intros k. revert l.
  assert (RUN : forall d_o ds cnt k l, fill_run v d_o ds k cnt l <> Throw e).
  { intros d_o ds cnt. induction cnt as [|cnt IH]; intros k' l; cbn; [discriminate|].
    unfold setN. destruct (_ <? _); cbn [bind]; [apply IH|discriminate]. }
  induction k as [|k IH]; intros l idx; cbn [fill_runs]; [discriminate|].
  match goal with |- bind ?x _ <> _ => assert (HX : x <> Throw e) by (destruct (_ =? _); apply RUN); destruct x as [y|e'|] end;
    cbn [bind]; [apply IH|congruence|discriminate].
Qed.

Lemma read_unit_throw st ov off n buf l c e : read_unit d st ov off n (buf, l) c = Throw e ->
  forall buf' l', read_unit d st ov off n (buf', l') c = Throw e \/ read_unit d st ov off n (buf', l') c = UB.
Proof.
  unfold read_unit. intros H buf' l'.
  destruct (coords_in_roi s b c off n) as [r|e'|]; cbn [bind] in *; [|left; exact H|discriminate].
  destruct (chunk_exists d st c) as [ex|e'|]; cbn [bind] in *; [|left; exact H|discriminate].
  destruct (negb ex).
  { exfalso. destruct (fill_view l _ _) eqn:E; cbn [bind] in H; try discriminate.
    eapply fill_view_no_throw; eauto. }
  destruct (get_chunk_shape d c) as [sh|e'|]; cbn [bind] in *; [|left; exact H|discriminate].
  destruct (read_raw_chunk d st c) as [db|e'|]; cbn [bind] in *; [|left; exact H|discriminate].
  set (hdr := if d_zarr d then Ok (prodw b, 0) else _) in *. clearbody hdr. destruct hdr as [[sz len]|e'|]; cbn [bind] in *; [|left; exact H|discriminate].
  match type of H with bind ?x _ = _ => destruct x as [b2|e'|] eqn:Ed end; cbn [bind] in H; [| |discriminate].
  - exfalso. match type of H with bind ?x _ = _ => destruct x as [b3|e'|] eqn:Er end; cbn [bind] in H; [| |discriminate].
    + match type of H with bind ?x _ = _ => destruct x as [b4|e'|] eqn:Ec end; cbn [bind] in H; try discriminate.
      eapply copy_view_no_throw; eauto.
    + destruct (_ && _) in Er; [|discriminate]. unfold reverse_first in Er. destruct (_ <? _); discriminate.
  - left. rewrite (decompress_throw Ed). exact H.
Qed.

Lemma zero_buffer : any_buffer d (repeat (zero_cell w) (N.to_nat (prodw b))).
Proof.
  eexists. split; [reflexivity|]. apply Forall_forall. intros e He. apply repeat_spec in He. subst e.
  unfold zero_cell. split; [unfold lenN; rewrite repeat_length; lia|].
  apply Forall_forall. intros x Hx. apply repeat_spec in Hx. subst x. unfold is_byte. lia.
Qed.
Lemma left_over_buffer buf : left_over w buf -> any_buffer d buf.
Proof. intros H. exists (lenN buf). split; [reflexivity|exact H]. Qed.

(** The units can run side by side. *)
Lemma out_locs_disjoint ov off size cs cs' x : out_view_ok ov size -> (forall c, In c cs -> ~ In c cs') ->
  out_locs ov off cs x -> ~ out_locs ov off cs' x.
Proof.
  intros (_ & _ & V3) Hd. destruct x as [k|a]; cbn; [tauto|]. intros (i & Hi & Hc & ->) (j & Hj & Hc' & E).
  assert (i = j) by (apply V3; auto; unfold out_addr in E; lia). subst j.
  eapply Hd; eauto.
Qed.

Lemma out_locs_dec ov off reqs x : (exists i, (i < length reqs)%nat /\ out_locs ov off [nth i reqs []] x) \/
  (forall i, (i < length reqs)%nat -> ~ out_locs ov off [nth i reqs []] x).
Proof.
  destruct x as [k|a]; [right; intros i _ H; exact H|].
  set (P := fun i => andb (out_addr ov i =? a) (if in_dec (list_eq_dec N.eq_dec) (chunk_of b (vadd off i)) reqs then true else false)).
  destruct (existsb P (coords (v_shape ov))) eqn:E.
  - left. apply existsb_exists in E as (i & Hi & HP). apply coords_In in Hi. unfold P in HP.
    apply andb_prop in HP as [HP1 HP2]. apply N.eqb_eq in HP1.
    destruct (in_dec _ _ _) as [Hin|]; [|discriminate]. apply (In_nth _ _ []) in Hin as (k & Hk & Ek).
    exists k. split; [exact Hk|]. exists i. split; [exact Hi|]. split; [left; exact Ek|auto].
  - right. intros k Hk (i & Hi & [Ei|[]] & Ea).
    assert (X : existsb P (coords (v_shape ov)) = true).
    { apply existsb_exists. exists i. split; [now apply coords_In|]. unfold P. rewrite <- Ea, N.eqb_refl. cbn.
      destruct (in_dec _ _ _) as [|Hn]; [reflexivity|]. exfalso. apply Hn. rewrite <- Ei. now apply nth_In. }
    congruence.
Qed.
(** Reading one chunk does not depend on the scratch buffer. *)
Definition unit_steady (st : store) (ov : view) (off c : shape) : Prop :=
  forall l buf buf', out_view_ok ov (lenN l) -> any_buffer d buf -> any_buffer d buf' ->
  match read_unit d st ov off (v_shape ov) (buf, l) c, read_unit d st ov off (v_shape ov) (buf', l) c with
  | Ok (b1, l1), Ok (b2, l2) => any_buffer d b1 /\ any_buffer d b2 /\ l1 = l2 /\ lenN l1 = lenN l
  | Throw e, Throw e' => e = e'
  | _, _ => False
  end.

Lemma read_vals_unique ov off f cs l l1 l2 : out_view_ok ov (lenN l) ->
  read_vals d ov off f cs l l1 -> read_vals d ov off f cs l l2 -> l1 = l2.
Proof.
  intros Hov (A1 & A2 & A3) (B1 & B2 & B3). apply list_eq_getN; [congruence|]. intros a Ha.
  destruct (out_locs_dec ov off cs (inr a)) as [(i & Hi & (x & Hx & [Ex|[]] & Ea))|H].
  - rewrite Ea. rewrite A2, B2; auto; rewrite <- Ex; now apply nth_In.
  - rewrite A3, B3; auto; intros x Hx Hc E; apply (In_nth _ _ []) in Hc as (i & Hi & Ei); apply (H i Hi); exists x;
      (split; [exact Hx|split; [left; exact Ei|exact E]]).
Qed.

Lemma file_unit_steady st ov off c : region_ok d off (v_shape ov) -> overlaps s b off (v_shape ov) c ->
  (forall file, st (chunk_key (d_key d) c) = Some file -> complete_file d c file) -> unit_steady st ov off c.
Proof.
  intros Hreg Hc HF l buf buf' Hov Hb Hb'.
  pose proof (@read_file_spec d ok ov off c l st buf Hreg Hov Hc Hb HF) as S1.
  pose proof (@read_file_spec d ok ov off c l st buf' Hreg Hov Hc Hb' HF) as S2.
  destruct (read_unit d st ov off (v_shape ov) (buf, l) c) as [[buf1 l1]|e1|] eqn:E1; [| |contradiction].
  - destruct (read_unit d st ov off (v_shape ov) (buf', l) c) as [[buf2 l2]|e2|] eqn:E2; [| |contradiction].
    + destruct S1 as (B1 & _ & V1), S2 as (B2 & _ & V2). split; [exact B1|]. split; [exact B2|].
      split; [eapply read_vals_unique; eauto|apply V1].
    + destruct (read_unit_throw E2 buf l) as [X|X]; congruence.
  - destruct (read_unit_throw E1 buf' l) as [X|X]; rewrite X in *; [reflexivity|contradiction].
Qed.

Lemma holds_unit_steady st C ov off c : region_ok d off (v_shape ov) -> overlaps s b off (v_shape ov) c ->
  holds d st C -> unit_steady st ov off c.
Proof.
  intros Hreg Hc HC l buf buf' Hov Hb Hb'.
  destruct (@read_unit_spec d ok ov off l buf c st C Hreg Hov Hc Hb HC) as (b1 & l1 & -> & B1 & V1).
  destruct (@read_unit_spec d ok ov off l buf' c st C Hreg Hov Hc Hb' HC) as (b2 & l2 & -> & B2 & V2).
  split; [exact B1|]. split; [exact B2|]. split; [|apply V1]. eapply (@read_vals_unique ov off (val d C)); eauto.
Qed.

Section Units.
Variables (ov : view) (off : shape) (st : store) (l : list cell) (o : N -> cell) (reqs : list shape).
Hypothesis Hreg : region_ok d off (v_shape ov).
Hypothesis Hov : out_view_ok ov (lenN l).
Hypothesis Hdet : forall c, overlaps s b off (v_shape ov) c -> unit_steady st ov off c.
Hypothesis Hl : lists o l.
Hypothesis Hreqs : forall c, In c reqs -> overlaps s b off (v_shape ov) c.
Hypothesis Hnd : NoDup reqs.
Notation unit_code := (fun (_ i : nat) => read_code d (lenN l) ov off (v_shape ov) (nth i reqs [])).
Notation b0 := (repeat (zero_cell w) (N.to_nat (prodw b))).

Lemma read_units_ok : tasks_ok pget (length reqs) (fun i tid => unit_code tid i) (any_buffer d)
    (fun i => out_locs ov off [nth i reqs []]) all_keys (st, o)
    (fun i => fst (run (unit_code 0%nat i b0) (st, o)))
    (fun i => ended (snd (run (unit_code 0%nat i b0) (st, o)))).
Proof.
  assert (HN : forall i, (i < length reqs)%nat -> overlaps s b off (v_shape ov) (nth i reqs [])).
  { intros i Hi. apply Hreqs, nth_In, Hi. }
  split.
  - intros i j x Hi Hj Hij Fi. apply (@out_locs_disjoint ov off _ [nth i reqs []] [nth j reqs []] x Hov); [|exact Fi].
    intros c [<-|[]] [E|[]]. apply Hij. symmetry. eapply (proj1 (NoDup_nth reqs [])); eauto.
  - intros i [k|a] Hi Fi; cbn in *; tauto.
  - intros i tid buf Hi. apply conf_read_code; auto. apply Hov.
  - intros i tid buf Hi Hb. set (c := nth i reqs []).
    pose proof (@run_read_code ov off st c buf l o Hreg (proj1 Hov) (HN i Hi) Hl) as R1.
    pose proof (@run_read_code ov off st c b0 l o Hreg (proj1 Hov) (HN i Hi) Hl) as R2.
    pose proof (Hdet (HN i Hi) Hov Hb zero_buffer) as S. fold c in S.
    destruct (read_unit d st ov off (v_shape ov) (buf, l) c) as [[buf1 l1]|e1|] eqn:E1; [| |contradiction].
    + destruct (read_unit d st ov off (v_shape ov) (b0, l) c) as [[buf2 l2]|e2|] eqn:E2; [| |contradiction]; [|contradiction].
      destruct R1 as (L1 & o1 & H1 & ->), R2 as (L2 & o2 & H2 & ->). cbn [fst snd ended ends].
      destruct S as (B1 & B2 & <- & _). split; [|exact B1].
      intros [k|a] Fa; [reflexivity|]. destruct Fa as (x & Hx & Hc & ->). cbn.
      assert (P : out_addr ov x < lenN l1) by (rewrite L1; apply Hov; exact Hx).
      specialize (H1 _ P). specialize (H2 _ P). congruence.
    + destruct (read_unit d st ov off (v_shape ov) (b0, l) c) as [[buf2 l2]|e2|] eqn:E2; [contradiction| |contradiction].
      subst e2. rewrite R1, R2. cbn. split; [apply agree_refl|reflexivity].
Qed.

End Units.

(** The sequential loop. *)
Lemma run_read_fold ov off st us : region_ok d off (v_shape ov) -> length (v_strides ov) = length (v_shape ov) ->
  (forall c, In c us -> overlaps s b off (v_shape ov) c) ->
  forall l o buf, lists o l ->
  match foldM (read_unit d st ov off (v_shape ov)) us (buf, l) with
  | Ok (buf', l') => lenN l' = lenN l /\ exists o', lists o' l' /\
      run (batch_prog (fun _ => read_code d (lenN l) ov off (v_shape ov)) 0 us buf) (st, o) = ((st, o'), Ok buf')
  | Throw e => snd (run (batch_prog (fun _ => read_code d (lenN l) ov off (v_shape ov)) 0 us buf) (st, o)) = Throw e
  | UB => True
  end.
Proof.
  intros Hreg V1. induction us as [|c us IH]; intros Hus l o buf HL; cbn [foldM batch_prog].
  - split; [reflexivity|]. exists o. split; [exact HL|reflexivity].
  - pose proof (@run_read_code ov off st c buf l o Hreg V1 (Hus c (or_introl eq_refl)) HL) as R. rewrite run_bind.
    destruct (read_unit d st ov off (v_shape ov) (buf, l) c) as [[buf1 l1]|e|]; cbn [bind]; [| |exact Logic.I].
    + destruct R as (L1 & o1 & H1 & ->). specialize (IH (fun c' H => Hus c' (or_intror H)) l1 o1 buf1 H1).
      rewrite L1 in IH.
      destruct (foldM _ us (buf1, l1)) as [[buf2 l2]|e|]; auto.
    + now rewrite R.
Qed.

Lemma read_fold_safe ov off st us : (forall c, overlaps s b off (v_shape ov) c -> unit_steady st ov off c) ->
  (forall c, In c us -> overlaps s b off (v_shape ov) c) ->
  forall l buf, out_view_ok ov (lenN l) -> any_buffer d buf ->
  foldM (read_unit d st ov off (v_shape ov)) us (buf, l) <> UB.
Proof.
  intros Hdet. induction us as [|c us IH]; intros Hus l buf Hov Hb; cbn [foldM]; [discriminate|].
  pose proof (Hdet c (Hus c (or_introl eq_refl)) l buf buf Hov Hb Hb) as S.
  destruct (read_unit d st ov off (v_shape ov) (buf, l) c) as [[buf1 l1]|e|] eqn:E1; cbn [bind]; [|discriminate|contradiction].
  destruct S as (B1 & _ & _ & L1). apply IH; [intros c' H; apply Hus; now right| |exact B1].
  rewrite L1. exact Hov.
Qed.

Lemma par_read_steady threads est ov off st l o o' r : region_ok d off (v_shape ov) -> out_view_ok ov (lenN l) ->
  (forall c, overlaps s b off (v_shape ov) c -> unit_steady st ov off c) ->
  lists o l -> read_run d threads est st ov off (lenN l) o o' r ->
  match read_subarray d st ov off l with
  | Ok l' => r = Ok tt /\ lists o' l'
  | Throw e => r = Throw e
  | UB => False
  end /\
  (forall a, (forall i, in_shape (v_shape ov) i -> a <> out_addr ov i) -> o' a = o a).
Proof.
  intros Hreg Hov Hfiles Hl H. destruct (begin_request_ok ok Hreg) as (reqs & E & ND & _ & HI).
  destruct H as [reqs' m1 r E' H|e E']; [|congruence]. assert (reqs' = reqs) by congruence. subst reqs'. clear E'.
  pose proof (@read_units_ok ov off st l o reqs Hreg Hov Hfiles Hl (fun c => proj1 (HI c)) ND) as U.
  destruct (schedule_independent U left_over_buffer (out_locs_dec ov off reqs) zero_buffer H) as (S1 & S2 & S3 & S4).
  pose proof (@run_units _ _ _ (read_code d (lenN l) ov off (v_shape ov)) reqs [] reqs 0%nat
    (repeat (zero_cell w) (N.to_nat (prodw b))) (st, o) eq_refl) as RU.
  unfold foreach_sequential in *. rewrite RU in S1, S2.
  pose proof (@run_read_fold ov off st reqs Hreg (proj1 Hov) (fun c => proj1 (HI c)) l o
     (repeat (zero_cell w) (N.to_nat (prodw b))) Hl) as F.
  pose proof (@read_fold_safe ov off st reqs Hfiles (fun c => proj1 (HI c)) l _ Hov zero_buffer) as NU.
  unfold read_subarray, read_plain in *. rewrite E in *. cbn [bind] in *.
  split.
  - destruct (foldM _ reqs _) as [[buf' l']|e|]; cbn [bind snd] in *; [| |exfalso; now apply NU].
    + destruct F as (L & o2 & H2 & E2). rewrite E2 in S1, S2. cbn [fst snd ended] in *. split; [exact S1|].
      intros a Ha. rewrite H2 by exact Ha. specialize (S2 S1 (inr a)). cbn in S2. congruence.
    + rewrite S1, F. reflexivity.
  - intros a Ha. assert (X : pget m1 (inr a) = pget (st, o) (inr a)).
    { apply S3. intros i _ (x & Hx & _ & Ea). eapply Ha; eauto. }
    cbn in X. congruence.
Qed.

Theorem par_read threads est ov off st l o o' r : region_ok d off (v_shape ov) -> out_view_ok ov (lenN l) ->
  (forall c file, overlaps s b off (v_shape ov) c -> st (chunk_key (d_key d) c) = Some file -> complete_file d c file) ->
  lists o l -> read_run d threads est st ov off (lenN l) o o' r ->
  match read_subarray d st ov off l with
  | Ok l' => r = Ok tt /\ lists o' l'
  | Throw e => r = Throw e
  | UB => False
  end /\
  (forall a, (forall i, in_shape (v_shape ov) i -> a <> out_addr ov i) -> o' a = o a).
Proof. intros Hreg Hov HF. apply par_read_steady; auto. intros c Hc. apply file_unit_steady; eauto. Qed.
End PlainRead.
