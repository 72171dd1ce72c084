(** Reads of arbitrary complete chunk files do not depend on the scratch buffer. *)
From Verif Require Import M_Base M_Text M_Key M_Blocking M_View M_Bytes M_N5Header M_Format M_Mode M_Dataset M_Access
  S_Array S_Grid S_Bytes S_Text S_Format S_Dataset S_Access S_File
  P_Base P_Blocking P_Roi P_View P_Bytes P_Key P_Format P_Dataset P_Access P_Read.
Import List ListNotations.
Local Open Scope list_scope.
Local Open Scope N_scope.

Lemma split_widths w n x : lenN x = n * w -> Forall is_byte x ->
  buffer_of w n (split_cells (N.to_nat n) w x).
Proof.
  intros L B. split; [unfold lenN; rewrite split_cells_length; lia|].
  assert (L' : lenN x = N.of_nat (N.to_nat n) * w) by lia. clear L. revert L'.
  generalize (N.to_nat n) as k. intros k. revert x B.
  induction k as [|k IH]; intros x B L; [constructor|]. cbn. constructor.
  - split; [|now apply Forall_firstn]. unfold lenN in *. rewrite firstn_length. lia.
  - apply IH; [now apply Forall_skipn|]. unfold lenN in *. rewrite skipn_length. lia.
Qed.

Lemma put_full w n out x : buffer_of w n out -> lenN x = n * w ->
  put_bytes w out x = Ok (split_cells (N.to_nat n) w x).
Proof.
  intros B L. pose proof (buffer_widths B) as W. destruct B as [Lo _].
  unfold put_bytes. rewrite (lenN_concat W), Lo, L, N.leb_refl. f_equal.
  replace (length out) with (N.to_nat n) by (unfold lenN in Lo; lia).
  unfold overlay. rewrite skipn_all2; [now rewrite app_nil_r|].
  pose proof (lenN_concat W) as E. unfold lenN in *. lia.
Qed.

Lemma rev_width1 d : widths 1 d -> reverse_endian d = d.
Proof.
  induction 1 as [|e d He _ IH]; [reflexivity|]. cbn. unfold reverse_endian in IH. rewrite IH. f_equal.
  unfold lenN in He. destruct e as [|x [|y e]]; cbn in He; try lia. reflexivity.
Qed.

Section WithDataset.
Variable d : dataset.
Hypothesis ok : dataset_ok d.
Notation w := (t_width (d_type d)).
Notation s := (d_shape d).
Notation b := (d_chunks d).
Notation valid := (valid_chunk (d_shape d) (d_chunks d)).

(** The output after chunks [l] have been read, for the array [f]. *)
Definition read_vals (ov : view) (off : shape) (f : shape -> cell) (l : list shape) (out out' : list cell) : Prop :=
  lenN out' = lenN out /\
  (forall i, in_shape (v_shape ov) i -> In (chunk_of b (vadd off i)) l ->
     getN out' (out_addr ov i) = Ok (f (vadd off i))) /\
  (forall a, (forall i, in_shape (v_shape ov) i -> In (chunk_of b (vadd off i)) l -> a <> out_addr ov i) ->
     getN out' a = getN out a).

Lemma read_vals_cons ov off f c l out out1 out2 : out_view_ok ov (lenN out) ->
  read_vals ov off f [c] out out1 -> read_vals ov off f l out1 out2 -> read_vals ov off f (c :: l) out out2.
Proof.
  intros (V1 & V2 & V3) (A1 & A2 & A3) (B1 & B2 & B3). split; [lia|]. split.
  - intros i Hi H. destruct (in_dec (list_eq_dec N.eq_dec) (chunk_of b (vadd off i)) l) as [Hin|Hn]; [now apply B2|].
    destruct H as [H|H]; [|contradiction]. rewrite B3.
    + apply A2; cbn; auto.
    + intros j Hj Hjl Eq. unfold out_addr in Eq. assert (i = j) by (apply V3; auto; lia). subst j. contradiction.
  - intros a Ha. rewrite B3, A3; auto.
    + intros i Hi [E|[]]. apply Ha; cbn; auto.
    + intros i Hi H. apply Ha; cbn; auto.
Qed.

(** The two shapes a chunk may be stored with. *)
Definition chunk_shape_of (c sh : shape) : Prop := sh = chunk_extent s b c \/ sh = b.

Lemma shape_of_props c sh : valid c -> chunk_shape_of c sh -> 0 < prod sh /\ prod sh < W64 /\ prod sh * w < W64 /\
  forall o n, sub_of (chunk_extent s b c) o n -> sub_of sh o n.
Proof.
  intros Hc H. destruct (extent_props ok Hc) as (E1 & E2 & E3 & E4). pose proof (prod_chunks_small ok) as PC.
  pose proof (do_bytes ok) as PB.
  assert (P1 : 0 < prod (chunk_extent s b c)).
  { revert E1. generalize (chunk_extent s b c). clear. induction 1; cbn; nia. }
  destruct H as [->| ->].
  - repeat split; auto; nia.
  - repeat split; auto; try lia. intros o n H. unfold sub_of in *. revert E3 H.
    generalize (chunk_extent s b c) as e. generalize b as bb. clear.
    intros bb e. revert bb o n. induction e as [|e0 e IH]; intros [|b0 bb] [|o0 o] [|s0 sh] E H; cbn in *; try tauto.
    split; [lia|]. apply IH; tauto.
Qed.

Lemma out_copy_any ov off c (out : list cell) r sh data : chunk_shape_of c sh ->
  region_ok d off (v_shape ov) -> out_view_ok ov (lenN out) -> valid c ->
  roi_exact s b c off (v_shape ov) (r_off_in_req r) (r_shape r) (r_off_in_chunk r) (r_complete r) ->
  lenN data = prod sh ->
  exists out', copy_view data (subview (make_view sh) (r_off_in_chunk r) (r_shape r))
                 out (subview ov (r_off_in_req r) (r_shape r)) = Ok out' /\ lenN out' = lenN out /\
  (forall i, in_shape (v_shape ov) i -> chunk_of b (vadd off i) = c ->
     getN out' (out_addr ov i) = Ok (cell_at data (rowmajor sh (pos_of b (vadd off i))))) /\
  (forall a, (forall i, in_shape (v_shape ov) i -> chunk_of b (vadd off i) = c -> a <> out_addr ov i) ->
     getN out' a = getN out a).
Proof.
  intros Hsh Hreg Hov Hc R LD. destruct (roi_facts ok Hreg Hc R) as (F1 & _ & _ & _).
  destruct (shape_of_props Hc Hsh) as (SP & SW & _ & SS).
  assert (F2 : sub_of sh (r_off_in_chunk r) (r_shape r)) by (apply SS; exact (re_in_chunk R)).
  pose proof Hov as (V1 & V2 & V3).
  assert (INJ : forall i j, in_shape (r_shape r) i -> in_shape (r_shape r) j ->
     lin (v_strides ov) i = lin (v_strides ov) j -> i = j).
  { intros i j Hi Hj Eq. destruct (sub_length F1).
    pose proof (in_shape_len Hi). pose proof (in_shape_len Hj).
    assert (Ev : vadd (r_off_in_req r) i = vadd (r_off_in_req r) j).
    { apply V3; try (now apply (sub_in_shape F1)). rewrite !lin_vadd by lia. lia. }
    apply (f_equal (fun z => vsub z (r_off_in_req r))) in Ev. rewrite !vsub_vadd in Ev by lia. exact Ev. }
  destruct (@copy_view_spec _ data out (subview (make_view sh) (r_off_in_chunk r) (r_shape r))
     (subview ov (r_off_in_req r) (r_shape r))) as (out' & E & L & A & O).
  - cbn. rewrite c_strides_length. destruct (sub_length F2). lia.
  - cbn. destruct (sub_length F1). lia.
  - cbn [v_shape subview]. intros i Hi. destruct (subview_full SP SW F2 Hi) as (_ & _ & _ & B). cbn in B |- *. lia.
  - cbn [v_shape subview]. intros i Hi. rewrite (out_sub F1 V1 Hi). apply V2. now apply (sub_in_shape F1).
  - cbn [v_shape v_strides subview]. exact INJ.
  - exists out'. split; [exact E|]. split; [exact L|].
    eapply (@out_part d ok ov off c out r (fun p => cell_at data (rowmajor sh p))); eauto.
    + intros i Hi. rewrite <- (out_sub F1 V1 Hi). rewrite A by exact Hi.
      destruct (subview_full SP SW F2 Hi) as (_ & _ & B1 & B2). rewrite B1 in *. apply cell_at_getN. lia.
    + intros a Ha. apply O. cbn [v_shape subview]. intros i Hi. rewrite (out_sub F1 V1 Hi). now apply Ha.
Qed.

(** Decompression into any buffer of the right size. *)
Lemma unpack_spec c sh file payload buf : chunk_shape_of c sh -> valid c -> complete_file d c file ->
  file_parts d file = Some (prod sh, payload) -> buffer_of w (prod sh) buf ->
  match unpack d (prod sh) payload with
  | Some x => decompress (d_codec d) w payload buf (prod sh) = Ok (split_cells (N.to_nat (prod sh)) w x) /\
      buffer_of w (prod sh) (split_cells (N.to_nat (prod sh)) w x)
  | None => exists e, decompress (d_codec d) w payload buf (prod sh) = Throw e
  end.
Proof.
  intros Hsh Hc Hf Hp Hb. destruct (Hf _ _ Hp) as (_ & HR & HN).
  destruct (shape_of_props Hc Hsh) as (_ & _ & PW & _).
  unfold unpack, decompress. rewrite mulw_small by lia.
  destruct (cd_raw (d_codec d)).
  - destruct (HR eq_refl) as [HB HR']. clear HR. rename HR' into HR. destruct (N.leb_spec (lenN payload) (prod sh * w)) as [H|H].
    + destruct (N.ltb_spec (prod sh * w) (lenN payload)) as [H'|_]; [lia|].
      split; [apply put_full; [exact Hb|lia]|]. apply split_widths; [lia|exact HB].
    + destruct (N.ltb_spec (prod sh * w) (lenN payload)) as [_|H']; [|lia]. eauto.
  - specialize (HN eq_refl). destruct (cd_dec (d_codec d) payload (prod sh * w)) as [x|e|]; [|cbn; eauto|contradiction].
    destruct HN as [L B]. cbn [bind]. split; [now apply put_full|]. now apply split_widths.
Qed.

Lemma parts_shape c file sz payload : valid c -> complete_file d c file -> file_parts d file = Some (sz, payload) ->
  let sh := if sz =? prod (chunk_extent s b c) then chunk_extent s b c else b in
  chunk_shape_of c sh /\ sz = prod sh.
Proof.
  intros Hc Hf Hp. destruct (Hf _ _ Hp) as (H & _). cbn zeta.
  destruct (N.eqb_spec sz (prod (chunk_extent s b c))) as [->|Hn]; [split; [left|]; reflexivity|].
  split; [now right|]. destruct H; [contradiction|auto].
Qed.

Lemma read_file_spec ov off c (out : list cell) st buf : region_ok d off (v_shape ov) -> out_view_ok ov (lenN out) ->
  overlaps s b off (v_shape ov) c -> any_buffer d buf ->
  (forall file, st (chunk_key (d_key d) c) = Some file -> complete_file d c file) ->
  match read_unit d st ov off (v_shape ov) (buf, out) c with
  | Ok (buf', out') => any_buffer d buf' /\ readable d st c /\ read_vals ov off (stored_value d st) [c] out out'
  | Throw _ => ~ readable d st c
  | UB => False
  end.
Proof.
  intros Hreg Hov Hovl Hbuf Hf. pose proof (overlaps_valid Hovl) as Hc.
  destruct (coords_in_roi_exact (do_dims ok) (proj1 Hreg) (proj2 Hreg) Hovl) as (r & Er & R).
  unfold read_unit. rewrite Er. cbn [bind].
  unfold chunk_exists. rewrite (handle_ok ok Hc). cbn [bind ch_key].
  destruct (st (chunk_key (d_key d) c)) as [file|] eqn:Es; cbn [negb].
  2:{ destruct (out_fill ok (d_fill d) Hreg Hov Hc R) as (out' & E & L & A & O). rewrite E. cbn [bind].
      split; [exact Hbuf|]. split; [intros f E'; congruence|]. split; [exact L|]. split.
      + intros i Hi [Ei|[]]. rewrite A by auto. unfold stored_value. rewrite <- Ei, Es. reflexivity.
      + intros a Ha. apply O. intros i Hi Ei. apply Ha; [exact Hi|left; auto]. }
  specialize (Hf _ eq_refl). rewrite (chunk_shape_ok ok Hc). cbn [bind].
  unfold read_raw_chunk. rewrite (handle_ok ok Hc). cbn [bind ch_key]. unfold store_read. rewrite Es. cbn [bind].
  destruct (extent_props ok Hc) as (_ & E2 & _ & _). pose proof (prod_chunks_small ok) as PC.
  rewrite (prodw_small PC), (@prodw_small (chunk_extent s b c)) by lia.
  set (hdr := if d_zarr d then Ok (prod b, 0) else _).
  assert (HP : match hdr with
               | Ok (sz, len) => file_parts d file = Some (sz, skipn (N.to_nat len) file)
               | Throw _ => file_parts d file = None
               | UB => False
               end).
  { subst hdr. unfold file_parts. destruct (d_zarr d); [reflexivity|].
    destruct (n5_header_safe file) as [(vl & sz & h & -> & _)| ->]; cbn [bind]; [destruct vl; reflexivity|reflexivity]. }
  clearbody hdr. destruct hdr as [[sz len]|e|]; cbn [bind]; [|intros X|contradiction].
  2:{ apply (X _ Es). unfold file_cells. now rewrite HP. }
  destruct (parts_shape Hc Hf HP) as [Hsh Hsz]. cbn zeta in Hsh, Hsz.
  assert (EQ1 : (if sz =? prod (chunk_extent s b c) then prod (chunk_extent s b c) else prod b) = sz).
  { revert Hsz. destruct (N.eqb_spec sz (prod (chunk_extent s b c))); auto. }
  rewrite EQ1. set (sh := if sz =? prod (chunk_extent s b c) then chunk_extent s b c else b) in *.
  pose proof (sized_buffer sz Hbuf) as Hb1. set (buf1 := if sz =? lenN buf then buf else resize w sz buf) in *. clearbody buf1.
  assert (FC : file_cells d c file = match unpack d (prod sh) (skipn (N.to_nat len) file) with
    | None => None
    | Some x => Some (sh, (if d_zarr d then split_cells (N.to_nat (prod sh)) w x else map (@rev N) (split_cells (N.to_nat (prod sh)) w x))) end).
  { unfold file_cells. rewrite HP. unfold sh at 2. rewrite <- Hsz. reflexivity. }
  clearbody sh. subst sz.
  pose proof (unpack_spec Hsh Hc Hf HP Hb1) as HU.
  destruct (unpack d (prod sh) (skipn (N.to_nat len) file)) as [x|] eqn:EU.
  2:{ destruct HU as [e ->]. cbn [bind]. intros X. now apply (X _ Es). }
  destruct HU as [-> HB]. cbn [bind]. set (cells := split_cells _ w x) in *. clearbody cells.
  set (fin := if d_zarr d then cells else map (@rev N) cells) in *.
  assert (E3 : (if negb (d_zarr d) && (1 <? w) then reverse_first (prod sh) cells else Ok cells) = Ok fin /\ buffer_of w (prod sh) fin).
  { subst fin. destruct (d_zarr d); cbn [negb andb]; [split; auto|].
    assert (BR : buffer_of w (prod sh) (map (@rev N) cells)).
    { destruct HB as [LB FB]. split; [unfold lenN in *; rewrite map_length; exact LB|].
      apply Forall_map. eapply Forall_impl; [|exact FB]. intros e [Le Be]. split.
      - unfold lenN in *. now rewrite rev_length.
      - now apply Forall_rev. }
    split; [|exact BR]. destruct (N.ltb_spec 1 w) as [H1|H1].
    - unfold reverse_first. destruct HB as [LB FB]. rewrite LB, N.ltb_irrefl.
      rewrite firstn_exact by exact LB. rewrite skipn_all2 by (unfold lenN in LB; lia). rewrite app_nil_r. f_equal. unfold reverse_endian. apply map_ext. apply reverse_elem_rev.
    - pose proof (do_width ok). assert (W1 : w = 1) by lia. rewrite W1 in *. f_equal.
      rewrite <- (rev_width1 (buffer_widths HB)) at 1. unfold reverse_endian. apply map_ext. apply reverse_elem_rev. }
  destruct E3 as [-> HBF]. cbn [bind]. clearbody fin.
  destruct (out_copy_any Hsh Hreg Hov Hc R (proj1 HBF)) as (out' & E & L & A & O). rewrite E. cbn [bind].
  split; [eexists; exact HBF|]. split; [intros f E'; congruence|]. split; [exact L|]. split.
  - intros i Hi [Ei|[]]. rewrite A by auto. unfold stored_value. rewrite <- Ei, Es, FC. reflexivity.
  - intros a Ha. apply O. intros i Hi Ei. apply Ha; [exact Hi|left; auto].
Qed.

Lemma read_file_fold ov off st l : region_ok d off (v_shape ov) ->
  (forall c, In c l -> overlaps s b off (v_shape ov) c) ->
  (forall c file, In c l -> st (chunk_key (d_key d) c) = Some file -> complete_file d c file) ->
  forall buf out, out_view_ok ov (lenN out) -> any_buffer d buf ->
  match foldM (read_unit d st ov off (v_shape ov)) l (buf, out) with
  | Ok (buf', out') => (forall c, In c l -> readable d st c) /\ read_vals ov off (stored_value d st) l out out'
  | Throw _ => exists c, In c l /\ ~ readable d st c
  | UB => False
  end.
Proof.
  intros Hreg. induction l as [|c l IH]; intros HO HF buf out Hov Hbuf.
  - cbn. split; [intros c []|]. split; [reflexivity|]. split; [intros i _ []|reflexivity].
  - cbn [foldM].
    pose proof (@read_file_spec ov off c out st buf Hreg Hov (HO c (or_introl eq_refl)) Hbuf
      (fun f => HF c f (or_introl eq_refl))) as U.
    destruct (read_unit d st ov off (v_shape ov) (buf, out) c) as [[buf1 out1]|e|]; cbn [bind].
    + destruct U as (B1 & R1 & D1). specialize (IH (fun c' H => HO c' (or_intror H)) (fun c' f H => HF c' f (or_intror H)) buf1 out1).
      destruct D1 as [L1 D1']. rewrite L1 in IH. specialize (IH Hov B1).
      destruct (foldM _ l (buf1, out1)) as [[buf2 out2]|e|].
      * destruct IH as [R2 D2]. split; [intros c' [<-|H]; auto|]. eapply read_vals_cons; eauto. split; auto.
      * destruct IH as (c' & H1 & H2). exists c'. split; [now right|auto].
      * exact IH.
    + exists c. split; [now left|auto].
    + exact U.
Qed.

(** A read of complete chunk files returns what the files say about each element,
    whatever other chunks the request covers. *)
Theorem read_files ov off st out : region_ok d off (v_shape ov) -> out_view_ok ov (lenN out) ->
  (forall c file, overlaps s b off (v_shape ov) c -> st (chunk_key (d_key d) c) = Some file -> complete_file d c file) ->
  ((forall c, overlaps s b off (v_shape ov) c -> readable d st c) ->
   exists out', read_subarray d st ov off out = Ok out') /\
  (forall out', read_subarray d st ov off out = Ok out' ->
     (forall c, overlaps s b off (v_shape ov) c -> readable d st c) /\
     lenN out' = lenN out /\
     (forall i, in_shape (v_shape ov) i -> getN out' (out_addr ov i) = Ok (stored_value d st (vadd off i))) /\
     (forall a, (forall i, in_shape (v_shape ov) i -> a <> out_addr ov i) -> getN out' a = getN out a)) /\
  read_subarray d st ov off out <> UB.
Proof.
  intros Hreg Hov HF. destruct (begin_request_ok ok Hreg) as (l & E & ND & _ & HI).
  unfold read_subarray, read_plain. rewrite E. cbn [bind].
  pose proof (@read_file_fold ov off st l Hreg (fun c H => proj1 (HI c) H)
     (fun c f H => HF c f (proj1 (HI c) H))
     (repeat (zero_cell w) (N.to_nat (prodw b))) out Hov) as U.
  assert (AB : any_buffer d (repeat (zero_cell w) (N.to_nat (prodw b)))).
  { eexists. split; [reflexivity|]. apply Forall_forall. intros e He. apply repeat_spec in He. subst e.
    unfold zero_cell. split; [unfold lenN; rewrite repeat_length; lia|].
    apply Forall_forall. intros x Hx. apply repeat_spec in Hx. subst x. unfold is_byte. lia. }
  specialize (U AB). destruct (foldM _ l _) as [[buf' out']|e|]; cbn [bind snd].
  - destruct U as (RD & L & A & O). split; [eauto|]. split; [|discriminate].
    intros out'' [= <-]. split; [intros c Hc; apply RD, HI, Hc|]. split; [exact L|]. split.
    + intros i Hi. apply A; [exact Hi|]. apply HI. exists (vadd off i).
      destruct Hreg as [Hr _]. pose proof (in_shape_len Hi).
      assert (length off = length (v_shape ov)) by (unfold valid_region in Hr; apply all3_length in Hr; lia).
      assert (Hb : in_box off (v_shape ov) (vadd off i)) by (apply sub_in_box; auto).
      split; [exact Hb|]. apply (elem_chunk ok). eapply region_in_shape; eauto.
    + intros a Ha. apply O. intros i Hi _. now apply Ha.
  - destruct U as (c & Hc & Hn). split; [|split; discriminate].
    intros H. exfalso. apply Hn, H. now apply HI.
  - contradiction.
Qed.

(** The chunk API agrees. *)
Theorem read_chunk_file c file st sh cells out : valid c -> st (chunk_key (d_key d) c) = Some file ->
  complete_file d c file -> file_cells d c file = Some (sh, cells) -> buffer_of w (prod sh) out ->
  read_chunk d st c out = Ok (false, cells).
Proof.
  intros Hc Es Hf FC Hb. unfold read_chunk. rewrite (handle_ok ok Hc). cbn [bind ch_key].
  rewrite (check_chunk_ok ok (c := c)) by auto. cbn [andb bind]. unfold store_read. rewrite Es.
  unfold file_cells in FC. destruct (file_parts d file) as [[sz payload]|] eqn:HP; [|discriminate].
  destruct (parts_shape Hc Hf HP) as [Hsh Hsz]. cbn zeta in Hsh, Hsz.
  destruct (unpack d sz payload) as [x|] eqn:EU; [|discriminate].
  assert (E1 : sh = (if sz =? prod (chunk_extent s b c) then chunk_extent s b c else b)) by congruence.
  assert (E2 : cells = (if d_zarr d then split_cells (N.to_nat sz) w x else map (@rev N) (split_cells (N.to_nat sz) w x))) by congruence.
  clear FC. rewrite <- E1 in Hsh, Hsz. clear E1. subst sz.
  pose proof (unpack_spec Hsh Hc Hf HP Hb) as HU. rewrite EU in HU. destruct HU as [HD HB].
  unfold buffer_to_data. unfold file_parts in HP. destruct (d_zarr d).
  - injection HP as HP1 HP2. cbn [bind]. rewrite (prodw_small (prod_chunks_small ok)), HP1.
    change (skipn (N.to_nat 0) file) with file. rewrite HP2, HD. cbn [bind negb andb]. congruence.
  - destruct (read_n5_header file) as [[[[|] n] len]|e|] eqn:EH; try discriminate. injection HP as -> <-. cbn [bind].
    rewrite HD. cbn [bind negb andb]. destruct HB as [LB FB]. subst cells. destruct (N.ltb_spec 1 w) as [H1|H1].
    + unfold reverse_first. rewrite LB, N.ltb_irrefl. rewrite firstn_exact by exact LB.
      rewrite skipn_all2 by (unfold lenN in LB; lia). rewrite app_nil_r. cbn [bind]. now rewrite reverse_endian_spec.
    + pose proof (do_width ok). assert (W1 : w = 1) by lia. rewrite W1 in *. cbn [bind]. do 2 f_equal.
      rewrite <- (@rev_width1 (split_cells (N.to_nat (prod sh)) 1 x)) at 1 by (eapply buffer_widths; split; eauto).
      apply reverse_endian_spec.
Qed.
End WithDataset.
