(** Reading sub-arrays of plain datasets. *)
From Verif Require Import M_Base M_Text M_Key M_Blocking M_View M_Bytes M_N5Header M_Format M_Mode M_Dataset M_Access
  S_Array S_Grid S_Bytes S_Text S_Format S_Dataset S_Access
  P_Base P_Blocking P_Roi P_View P_Bytes P_Key P_Format P_Dataset P_Access.
Import List ListNotations.
Local Open Scope list_scope.
Local Open Scope N_scope.

Section WithDataset.
Variable d : dataset.
Hypothesis ok : dataset_ok d.
Notation w := (t_width (d_type d)).
Notation s := (d_shape d).
Notation b := (d_chunks d).
Notation valid := (valid_chunk (d_shape d) (d_chunks d)).

Definition out_addr (ov : view) (i : shape) : N := v_off ov + lin (v_strides ov) i.

(** The output after chunks [l] have been read. *)
Definition read_done (ov : view) (off : shape) (C : shape -> option (list cell)) (l : list shape)
    (out out' : list cell) : Prop :=
  lenN out' = lenN out /\
  (forall i, in_shape (v_shape ov) i -> In (chunk_of b (vadd off i)) l ->
     getN out' (out_addr ov i) = Ok (val d C (vadd off i))) /\
  (forall a, (forall i, in_shape (v_shape ov) i -> In (chunk_of b (vadd off i)) l -> a <> out_addr ov i) ->
     getN out' a = getN out a).

(** The part of one chunk is written to the output, given the two cases of the
    code: copy from the decoded chunk or fill. *)
Lemma out_part ov off c (out : list cell) r (vals : shape -> cell) :
  region_ok d off (v_shape ov) -> out_view_ok ov (lenN out) -> valid c ->
  roi_exact s b c off (v_shape ov) (r_off_in_req r) (r_shape r) (r_off_in_chunk r) (r_complete r) ->
  forall out', lenN out' = lenN out ->
  (forall i, in_shape (r_shape r) i ->
     getN out' (out_addr ov (vadd (r_off_in_req r) i)) = Ok (vals (vadd (r_off_in_chunk r) i))) ->
  (forall a, (forall i, in_shape (r_shape r) i -> a <> out_addr ov (vadd (r_off_in_req r) i)) ->
     getN out' a = getN out a) ->
  (forall i, in_shape (v_shape ov) i -> chunk_of b (vadd off i) = c ->
     getN out' (out_addr ov i) = Ok (vals (pos_of b (vadd off i)))) /\
  (forall a, (forall i, in_shape (v_shape ov) i -> chunk_of b (vadd off i) = c -> a <> out_addr ov i) ->
     getN out' a = getN out a).
Proof.
  intros Hreg Hov Hc R out' L H1 H2. destruct Hreg as [Hr Hs].
  destruct (roi_facts ok (conj Hr Hs) Hc R) as (F1 & F2 & F3 & F4).
  assert (LN : length off = length s /\ length (v_shape ov) = length s).
  { unfold valid_region in Hr. apply all3_length in Hr. lia. }
  assert (FWD : forall i, in_shape (v_shape ov) i -> chunk_of b (vadd off i) = c ->
    exists j, in_shape (r_shape r) j /\ i = vadd (r_off_in_req r) j /\ pos_of b (vadd off i) = vadd (r_off_in_chunk r) j).
  { intros i Hi E. pose proof (in_shape_len Hi) as Li.
    assert (Hb : in_box off (v_shape ov) (vadd off i)) by (apply sub_in_box; [lia|auto]).
    assert (Hx : in_shape s (vadd off i)) by (eapply region_in_shape; eauto).
    destruct (elem_chunk ok Hx) as (_ & _ & P1 & P2). pose proof (elem_stored ok Hx) as P3. rewrite E in P1, P2, P3.
    rewrite <- P2 in Hb. apply (F4 _ P3) in Hb. destruct (in_box_sub Hb) as (j & Hj & Ej).
    exists j. split; [exact Hj|]. split; [|exact Ej].
    rewrite Ej, F3 in P2 by auto. apply (f_equal (fun z => vsub z off)) in P2.
    destruct (sub_length F1). pose proof (in_shape_len Hj).
    rewrite !vsub_vadd in P2; [auto|lia|]. rewrite vadd_length; lia. }
  assert (BWD : forall j, in_shape (r_shape r) j ->
    in_shape (v_shape ov) (vadd (r_off_in_req r) j) /\ chunk_of b (vadd off (vadd (r_off_in_req r) j)) = c).
  { intros j Hj. split; [now apply (sub_in_shape F1)|]. apply (in_chunk_of ok).
    apply (re_isect R). rewrite vadd_assoc. apply sub_in_box; [|exact Hj].
    destruct (sub_length F1). rewrite vadd_length; lia. }
  split.
  - intros i Hi E. destruct (FWD i Hi E) as (j & Hj & -> & ->). now apply H1.
  - intros a Ha. apply H2. intros j Hj. destruct (BWD j Hj). now apply Ha.
Qed.

Lemma out_sub ov oreq sh : sub_of (v_shape ov) oreq sh -> length (v_strides ov) = length (v_shape ov) ->
  forall i, in_shape sh i ->
  v_off (subview ov oreq sh) + lin (v_strides (subview ov oreq sh)) i = out_addr ov (vadd oreq i).
Proof.
  intros Hs Hl i Hi. unfold out_addr. cbn. rewrite flat_offset_lin, lin_vadd; [lia|].
  destruct (sub_length Hs). pose proof (in_shape_len Hi). lia.
Qed.

Lemma out_fill ov off c (out : list cell) r v :
  region_ok d off (v_shape ov) -> out_view_ok ov (lenN out) -> valid c ->
  roi_exact s b c off (v_shape ov) (r_off_in_req r) (r_shape r) (r_off_in_chunk r) (r_complete r) ->
  exists out', fill_view out (subview ov (r_off_in_req r) (r_shape r)) v = Ok out' /\ lenN out' = lenN out /\
  (forall i, in_shape (v_shape ov) i -> chunk_of b (vadd off i) = c ->
     getN out' (out_addr ov i) = Ok v) /\
  (forall a, (forall i, in_shape (v_shape ov) i -> chunk_of b (vadd off i) = c -> a <> out_addr ov i) ->
     getN out' a = getN out a).
Proof.
  intros Hreg Hov Hc R. destruct (roi_facts ok Hreg Hc R) as (F1 & F2 & F3 & F4).
  pose proof Hov as (V1 & V2 & V3).
  destruct (@fill_view_spec _ v out (subview ov (r_off_in_req r) (r_shape r))) as (out' & E & L & A & O).
  - cbn. destruct (sub_length F1). lia.
  - cbn [v_shape subview]. intros i Hi. rewrite (out_sub F1 V1 Hi). apply V2. now apply (sub_in_shape F1).
  - exists out'. split; [exact E|]. split; [exact L|].
    eapply (@out_part ov off c out r (fun _ => v)); eauto.
    + intros i Hi. rewrite <- (out_sub F1 V1 Hi). now apply A.
    + intros a Ha. apply O. cbn [v_shape subview]. intros i Hi. rewrite (out_sub F1 V1 Hi). now apply Ha.
Qed.

Lemma out_copy ov off c (out : list cell) r data :
  region_ok d off (v_shape ov) -> out_view_ok ov (lenN out) -> valid c ->
  roi_exact s b c off (v_shape ov) (r_off_in_req r) (r_shape r) (r_off_in_chunk r) (r_complete r) ->
  lenN data = prod (stored_shape d c) ->
  exists out', copy_view data (subview (make_view (stored_shape d c)) (r_off_in_chunk r) (r_shape r))
                 out (subview ov (r_off_in_req r) (r_shape r)) = Ok out' /\ lenN out' = lenN out /\
  (forall i, in_shape (v_shape ov) i -> chunk_of b (vadd off i) = c ->
     getN out' (out_addr ov i) = Ok (cell_at data (rowmajor (stored_shape d c) (pos_of b (vadd off i))))) /\
  (forall a, (forall i, in_shape (v_shape ov) i -> chunk_of b (vadd off i) = c -> a <> out_addr ov i) ->
     getN out' a = getN out a).
Proof.
  intros Hreg Hov Hc R LD. destruct (roi_facts ok Hreg Hc R) as (F1 & F2 & F3 & F4).
  pose proof Hov as (V1 & V2 & V3). destruct (stored_props ok Hc) as (_ & SP & _ & SW & _ & SL).
  assert (INJ : forall i j, in_shape (r_shape r) i -> in_shape (r_shape r) j ->
     lin (v_strides ov) i = lin (v_strides ov) j -> i = j).
  { intros i j Hi Hj Eq. destruct (sub_length F1).
    pose proof (in_shape_len Hi). pose proof (in_shape_len Hj).
    assert (Ev : vadd (r_off_in_req r) i = vadd (r_off_in_req r) j).
    { apply V3; try (now apply (sub_in_shape F1)). rewrite !lin_vadd by lia. lia. }
    apply (f_equal (fun z => vsub z (r_off_in_req r))) in Ev. rewrite !vsub_vadd in Ev by lia. exact Ev. }
  destruct (@copy_view_spec _ data out (subview (make_view (stored_shape d c)) (r_off_in_chunk r) (r_shape r))
     (subview ov (r_off_in_req r) (r_shape r))) as (out' & E & L & A & O).
  - cbn. rewrite c_strides_length. destruct (sub_length F2). lia.
  - cbn. destruct (sub_length F1). lia.
  - cbn [v_shape subview]. intros i Hi. destruct (subview_full SP SW F2 Hi) as (_ & _ & _ & B). cbn in B |- *. lia.
  - cbn [v_shape subview]. intros i Hi. rewrite (out_sub F1 V1 Hi). apply V2. now apply (sub_in_shape F1).
  - cbn [v_shape v_strides subview]. exact INJ.
  - exists out'. split; [exact E|]. split; [exact L|].
    eapply (@out_part ov off c out r (fun p => cell_at data (rowmajor (stored_shape d c) p))); eauto.
    + intros i Hi. rewrite <- (out_sub F1 V1 Hi). rewrite A by exact Hi.
      destruct (subview_full SP SW F2 Hi) as (_ & _ & B1 & B2). rewrite B1 in *. apply cell_at_getN. lia.
    + intros a Ha. apply O. cbn [v_shape subview]. intros i Hi. rewrite (out_sub F1 V1 Hi). now apply Ha.
Qed.

(** Decoding of a chunk by the read path. *)
Lemma read_unit_decode ov off out r buf c st data : valid c -> any_buffer d buf ->
  coords_in_roi s b c off (v_shape ov) = Ok r ->
  chunk_holds d st c (Some (false, data)) ->
  read_unit d st ov off (v_shape ov) (buf, out) c =
    let! out' := copy_view data (subview (make_view (stored_shape d c)) (r_off_in_chunk r) (r_shape r))
                   out (subview ov (r_off_in_req r) (r_shape r)) in
    Ok (data, out').
Proof.
  intros Hc Hbuf Er Hh. destruct (read_holds ok Hc Hh) as (Ex & _ & _ & RD).
  destruct Hh as (bb & Hb & HD & HB & HL & _). specialize (HL eq_refl).
  destruct (stored_props ok Hc) as (_ & SP & SB & SW & _ & SL).
  destruct (extent_props ok Hc) as (E1 & E2 & E3 & E4). pose proof (prod_chunks_small ok) as PC.
  pose proof (sized_buffer (prod (stored_shape d c)) Hbuf) as Hb1.
  set (buf1 := if prod (stored_shape d c) =? lenN buf then buf else resize w (prod (stored_shape d c)) buf) in *.
  assert (DEC : buffer_to_data (d_zarr d) (d_type d) (d_codec d) b bb buf1 = Ok (false, data)).
  { destruct (RD false data eq_refl _ buf1 Hb1) as (rest & Rd & Erest); [lia|auto|].
    unfold read_chunk in Rd. rewrite (handle_ok ok Hc) in Rd. cbn [bind ch_key] in Rd.
    rewrite (check_chunk_ok ok (c := c)) in Rd by auto. cbn [andb bind] in Rd. unfold store_read in Rd. rewrite Hb in Rd.
    rewrite Rd. do 2 f_equal. destruct Hb1 as [Lb _].
    assert (length buf1 = length data) as Hle by (unfold lenN in *; lia).
    rewrite <- Hle, firstn_all in Erest. destruct rest; [apply app_nil_r|].
    apply (f_equal (@length _)) in Erest. rewrite app_length in Erest. cbn in Erest. lia. }
  unfold read_unit. rewrite Er. cbn [bind]. rewrite Ex. cbn [bind negb].
  rewrite chunk_shape_ok by auto. cbn [bind].
  unfold read_raw_chunk. rewrite (handle_ok ok Hc). cbn [bind ch_key]. unfold store_read. rewrite Hb. cbn [bind].
  unfold buffer_to_data in DEC.
  destruct (d_zarr d) eqn:Z.
  - cbn [bind negb andb] in DEC |- *.
    assert (HS : stored_shape d c = b) by (unfold stored_shape; now rewrite Z).
    assert (X1 : (if prodw b =? prodw (chunk_extent s b c) then prodw (chunk_extent s b c) else prodw b) = prod (stored_shape d c)).
    { rewrite HS. destruct (N.eqb_spec (prodw b) (prodw (chunk_extent s b c))) as [<-|_]; now apply prodw_small. }
    assert (X2 : (if prodw b =? prodw (chunk_extent s b c) then chunk_extent s b c else b) = stored_shape d c).
    { rewrite HS. destruct (N.eqb_spec (prodw b) (prodw (chunk_extent s b c))) as [E|_]; [|reflexivity].
      apply (extent_eq ok Hc Z). auto. }
    rewrite X1, X2. fold buf1. rewrite (prodw_small PC) in DEC. assert (EP : prod b = prod (stored_shape d c)) by now rewrite HS.
    rewrite EP in DEC.
    destruct (decompress (d_codec d) w (skipn (N.to_nat 0) bb) buf1 (prod (stored_shape d c))) as [o1| |]; cbn [bind] in *; try discriminate.
    injection DEC as ->. reflexivity.
  - assert (HS : stored_shape d c = chunk_extent s b c) by (unfold stored_shape; now rewrite Z).
    destruct (encode_header HD) as (payload & EH). cbn [bind] in *.
    assert (HH : read_n5_header bb = Ok (false, prod (chunk_extent s b c), lenN (write_n5_header (chunk_extent s b c) false (prodw (chunk_extent s b c))))).
    { rewrite EH.
      assert (Hok' : header_ok (chunk_extent s b c) 0) by (apply (header_shape ok Z Hc); lia).
      assert (EQ : write_n5_header (chunk_extent s b c) false (prodw (chunk_extent s b c)) = write_n5_header (chunk_extent s b c) false 0) by reflexivity.
      rewrite EQ. apply (n5_header_roundtrip false payload Hok'). lia. }
    rewrite HH in *. cbn [bind negb andb] in *. rewrite prodw_small by lia. rewrite N.eqb_refl.
    rewrite <- HS in *. fold buf1.
    destruct (decompress (d_codec d) w _ buf1 (prod (stored_shape d c))) as [o1| |]; cbn [bind] in *; try discriminate.
    destruct (1 <? w).
    + destruct (reverse_first (prod (stored_shape d c)) o1); cbn [bind] in *; try discriminate. injection DEC as ->. reflexivity.
    + cbn [bind] in *. injection DEC as ->. reflexivity.
Qed.

Lemma read_unit_spec ov off out buf c st C :
  region_ok d off (v_shape ov) -> out_view_ok ov (lenN out) -> overlaps s b off (v_shape ov) c ->
  any_buffer d buf -> holds d st C ->
  exists buf' out', read_unit d st ov off (v_shape ov) (buf, out) c = Ok (buf', out') /\ any_buffer d buf' /\
    read_done ov off C [c] out out'.
Proof.
  intros Hreg Hov Hovl Hbuf HC. pose proof (overlaps_valid Hovl) as Hc. specialize (HC c Hc).
  destruct (coords_in_roi_exact (do_dims ok) (proj1 Hreg) (proj2 Hreg) Hovl) as (r & Er & R).
  destruct (C c) as [data|] eqn:EC; cbn [option_map] in HC.
  - rewrite (read_unit_decode out Hc Hbuf Er HC).
    destruct HC as (bb & Hb & HD & HB & HL & _). specialize (HL eq_refl).
    destruct (out_copy Hreg Hov Hc R HL) as (out' & E & L & A & O). rewrite E. cbn [bind].
    exists data, out'. split; [reflexivity|]. split; [eexists; exact HB|]. split; [exact L|]. split.
    + intros i Hi [Ei|[]]. rewrite A by auto. unfold val. rewrite <- Ei, EC. reflexivity.
    + intros a Ha. apply O. intros i Hi Ei. apply Ha; [exact Hi|left; auto].
  - destruct (read_holds ok Hc (r := None) HC) as (Ex & _).
    destruct (out_fill (d_fill d) Hreg Hov Hc R) as (out' & E & L & A & O).
    exists buf, out'. unfold read_unit. rewrite Er. cbn [bind]. rewrite Ex. cbn [bind negb]. rewrite E. cbn [bind].
    split; [reflexivity|]. split; [exact Hbuf|]. split; [exact L|]. split.
    + intros i Hi [Ei|[]]. rewrite A by auto. unfold val. rewrite <- Ei, EC. reflexivity.
    + intros a Ha. apply O. intros i Hi Ei. apply Ha; [exact Hi|left; auto].
Qed.

Lemma read_done_cons ov off C c l out out1 out2 : out_view_ok ov (lenN out) ->
  read_done ov off C [c] out out1 -> read_done ov off C l out1 out2 -> read_done ov off C (c :: l) out out2.
Proof.
  intros (V1 & V2 & V3) (A1 & A2 & A3) (B1 & B2 & B3). split; [lia|]. split.
  - intros i Hi H. destruct (in_dec (list_eq_dec N.eq_dec) (chunk_of b (vadd off i)) l) as [Hin|Hn]; [now apply B2|].
    destruct H as [H|H]; [|contradiction]. rewrite B3.
    + apply A2; cbn; auto.
    + intros j Hj Hjl Eq. unfold out_addr in Eq. assert (i = j) by (apply V3; auto; lia). subst j. contradiction.
  - intros a Ha. rewrite B3, A3; auto.
    + intros i Hi [E|[]]. apply Ha; cbn; auto.
    + intros i Hi H. apply Ha; cbn; auto.
Qed.

Lemma read_fold ov off st C l : region_ok d off (v_shape ov) -> holds d st C ->
  (forall c, In c l -> overlaps s b off (v_shape ov) c) ->
  forall buf out, out_view_ok ov (lenN out) -> any_buffer d buf ->
  exists buf' out', foldM (read_unit d st ov off (v_shape ov)) l (buf, out) = Ok (buf', out') /\
    read_done ov off C l out out'.
Proof.
  intros Hreg HC. induction l as [|c l IH]; intros HO buf out Hov Hbuf.
  - exists buf, out. split; [reflexivity|]. split; [reflexivity|]. split; [intros i _ []|reflexivity].
  - destruct (@read_unit_spec ov off out buf c st C Hreg Hov (HO c (or_introl eq_refl)) Hbuf HC)
      as (buf1 & out1 & E1 & B1 & D1).
    destruct (IH (fun c' H => HO c' (or_intror H)) buf1 out1) as (buf2 & out2 & E2 & D2).
    { destruct D1 as [-> _]. exact Hov. } { exact B1. }
    exists buf2, out2. split; [cbn [foldM]; rewrite E1; exact E2|]. eapply read_done_cons; eauto.
Qed.

(** A read returns the array elements of the region and touches nothing else of
    the output. *)
Lemma read_subarray_spec ov off st C out : region_ok d off (v_shape ov) -> holds d st C ->
  out_view_ok ov (lenN out) ->
  exists out', read_subarray d st ov off out = Ok out' /\ lenN out' = lenN out /\
    (forall i, in_shape (v_shape ov) i -> getN out' (out_addr ov i) = Ok (val d C (vadd off i))) /\
    (forall a, (forall i, in_shape (v_shape ov) i -> a <> out_addr ov i) -> getN out' a = getN out a).
Proof.
  intros Hreg HC Hov. destruct (begin_request_ok ok Hreg) as (l & E & ND & _ & HI).
  destruct (@read_fold ov off st C l Hreg HC (fun c H => proj1 (HI c) H)
     (repeat (zero_cell w) (N.to_nat (prodw b))) out Hov) as (buf' & out' & E2 & L & A & O).
  { eexists. split; [reflexivity|]. apply Forall_forall. intros e He. apply repeat_spec in He. subst e.
    unfold zero_cell. split; [unfold lenN; rewrite repeat_length; lia|].
    apply Forall_forall. intros x Hx. apply repeat_spec in Hx. subst x. unfold is_byte. lia. }
  exists out'. split; [|split; [exact L|split]].
  - unfold read_subarray, read_plain. rewrite E. cbn [bind]. rewrite E2. reflexivity.
  - intros i Hi. apply A; [exact Hi|]. apply HI. exists (vadd off i).
    destruct Hreg as [Hr _]. pose proof (in_shape_len Hi).
    assert (length off = length (v_shape ov)) by (unfold valid_region in Hr; apply all3_length in Hr; lia).
    assert (Hb : in_box off (v_shape ov) (vadd off i)) by (apply sub_in_box; auto).
    split; [exact Hb|]. apply (elem_chunk ok). eapply region_in_shape; eauto.
  - intros a Ha. apply O. intros i Hi _. now apply Ha.
Qed.
End WithDataset.
