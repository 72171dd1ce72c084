(** Loops of the sub-array functions on several threads, III: sharded datasets. *)
From Verif Require Import M_Base M_Text M_Key M_Blocking M_View M_Bytes M_N5Header M_Format
  M_Mode M_Shard M_Dataset M_Sharded M_Access M_Pool M_Parallel
  S_Array S_Grid S_Bytes S_Text S_Format S_Shard S_Dataset S_Sharded S_Access S_File S_Pool S_Parallel
  P_Base P_Blocking P_Roi P_View P_Bytes P_Key P_Format P_Shard P_Dataset P_Access P_Read P_Sharded P_File P_Pool
  P_Foreach P_Parallel P_ParWrite.
Import List ListNotations.
Local Open Scope list_scope.
Local Open Scope N_scope.

(** ** Code that goes on with different continuations *)
Lemma pfill_cont size dv v idx : forall m, exists m', (forall k, run (pfill size dv v idx k) m = run k m') \/
  (forall k, run (pfill size dv v idx k) m = (m', UB)).
Proof.
  induction idx as [|i idx IH]; intros m; cbn [pfill].
  - exists m. left. reflexivity.
  - destruct (_ <? size); [|exists m; right; reflexivity]. cbn [pout run]. apply IH.
Qed.
Lemma pcopy_cont size src sv dv idx : forall m, exists m', (forall k, run (pcopy size src sv dv idx k) m = run k m') \/
  (forall k, run (pcopy size src sv dv idx k) m = (m', UB)).
Proof.
  induction idx as [|i idx IH]; intros m; cbn [pcopy].
  - exists m. left. reflexivity.
  - destruct (getN _ _) as [v|e|] eqn:E; cbn [plet].
    2:{ exfalso. revert E. unfold getN. destruct (_ <? _); [destruct (nth_error _ _)|]; discriminate. }
    2:{ exists m; right; reflexivity. }
    destruct (_ <? size); [|exists m; right; reflexivity]. cbn [pout run]. apply IH.
Qed.

Section Sharded.
Variable sd : sharded.
Hypothesis sok : sharded_ok sd.
Notation d := (sd_base sd).
Notation w := (t_width (d_type (sd_base sd))).
Notation s := (d_shape (sd_base sd)).
Notation b := (d_chunks (sd_base sd)).
Notation cps := (sd_cps sd).
Notation valid := (valid_chunk (d_shape (sd_base sd)) (d_chunks (sd_base sd))).
Notation ok := (so_base sok).

Lemma slot c : length c = length b -> shard_slot c cps = Ok (slot_of sd c) /\ slot_of sd c < prod cps.
Proof. destruct (so_blob sok) as (m & M1 & M2). exact (@slot_ok sd sok m M1 M2 c). Qed.
Lemma slots_eq : sd_slots sd = prod cps.
Proof. destruct (so_blob sok) as (m & M1 & M2). exact (proj1 (@slots_small sd sok m M1 M2)). Qed.
Lemma blob_made c data : valid c -> buffer_of w (prod b) data -> exists o, make_chunk_blob sd c data = Ok o.
Proof.
  destruct (so_blob sok) as (m & M1 & M2). intros H1 H2.
  destruct (@make_blob_ok sd sok m M2 (own_blob sd) (@own_blob_ok sd) c data H1 H2) as (o & E & _). eauto.
Qed.
Lemma blobs_written st coord blobs : can_write (d_mode d) = true -> length coord = length b ->
  write_shard_blobs sd coord blobs st =
    (set_key st (chunk_key (d_key d) coord) (if all_slots_empty blobs then None else Some (build_shard blobs)), Ok tt).
Proof. destruct (so_blob sok) as (m & M1 & M2). exact (@write_blobs_ok sd sok m M1 M2 st coord blobs). Qed.

(** ** A shard is rejected, or every slot can be looked up *)
Definition shows (raw : option (bytes * list (N * N))) (blobs : list bytes) : Prop :=
  forall i x, getN blobs i = Ok x ->
      match x with
      | [] => raw_slot raw i = Ok None
      | _ => exists bs o n, raw_slot raw i = Ok (Some (bs, (o, n))) /\ read_bytes bs o n = Ok x
      end.

Lemma shard_cases st coord : length coord = length b ->
  (read_shard_blobs sd st coord = Throw ERuntime /\ read_shard_raw sd st coord = Throw ERuntime) \/
  (exists blobs raw, read_shard_blobs sd st coord = Ok blobs /\ read_shard_raw sd st coord = Ok raw /\
     lenN blobs = prod cps /\ shows raw blobs /\
     forall c, length c = length b -> shard_of cps c = coord ->
       exists x, getN blobs (slot_of sd c) = Ok x /\ sh_read_raw_chunk sd st c = Ok x).
Proof.
  intros L. destruct (shard_handle_ok sok L) as [bs E]. unfold read_shard_blobs, read_shard_raw. rewrite E. cbn [bind ch_key].
  unfold store_read. rewrite slots_eq. destruct (st (chunk_key (d_key d) coord)) as [file|] eqn:Es.
  2:{ right. exists (repeat [] (N.to_nat (prod cps))), None. split; [reflexivity|]. split; [reflexivity|].
      split; [rewrite lenN_repeat; lia|]. split.
      - intros i x Hx. apply getN_ok in Hx. apply nth_error_In, repeat_spec in Hx. subst x. reflexivity.
      - intros c Lc Hc. exists []. destruct (slot Lc) as [S1 S2]. split.
        + apply getN_ok. apply nth_error_repeat. lia.
        + unfold sh_read_raw_chunk, read_shard. rewrite (@shard_id_spec c cps (cps_pos sok)) by (rewrite (cps_len sok); exact Lc).
          cbn [bind]. rewrite Hc, E. cbn [bind ch_key]. unfold store_read. now rewrite Es. }
  destruct (parse_shard_safe file (prod cps)) as [P0|(es & blobs & P0 & LE & _ & _ & X & LB)]; cbn [bind].
  { left. rewrite P0. auto. }
  rewrite P0. cbn [bind].
  right. exists blobs. eexists. split; [exact X|]. split; [reflexivity|]. split; [exact LB|]. split.
  - intros i x Hx.
    destruct (@getN_in _ es i) as [e He]; [rewrite LE, <- LB; eapply getN_bound; eauto|].
    destruct (extract_getN X He) as (x' & Hx' & Hr). rewrite Hx in Hx'. injection Hx' as <-.
    assert (Ht : getN (map (fun e => if entry_empty e then (0, 0) else (e_offset e, e_nbytes e)) es) i =
       Ok (if entry_empty e then (0, 0) else (e_offset e, e_nbytes e))).
    { apply getN_ok. apply getN_ok in He. rewrite nth_error_map, He. reflexivity. }
    cbn [raw_slot]. rewrite Ht. cbn [bind]. destruct (entry_empty e); [subst; reflexivity|].
    pose proof (read_bytes_len Hr) as Ln. cbn [snd].
    destruct x as [|x0 x]; [cbn in Ln; rewrite <- Ln; reflexivity|]. rewrite lenN_cons in Ln.
    destruct (N.eqb_spec (e_nbytes e) 0); [lia|]. eauto.
  - intros c Lc Hc. destruct (slot Lc) as [S1 S2].
    destruct (@getN_in _ es (slot_of sd c)) as [e He]; [rewrite LE; exact S2|].
    destruct (extract_getN X He) as (x & Hx & Hr). exists x. split; [exact Hx|].
    unfold sh_read_raw_chunk, read_shard. rewrite (@shard_id_spec c cps (cps_pos sok)) by (rewrite (cps_len sok); exact Lc).
    cbn [bind]. rewrite Hc, E. cbn [bind ch_key]. unfold store_read. rewrite Es, slots_eq.
    destruct (parse_shard_safe file (prod cps)) as [P|(es' & blobs' & P & _ & _ & _ & X' & _)]; [exfalso|].
    + (* the same call *) congruence.
    + rewrite P. cbn [bind]. rewrite S1. cbn [bind]. assert (es' = es) by congruence. subst. rewrite He. cbn [bind].
      destruct (entry_empty e); [now subst x|exact Hr].
Qed.

(** ** Reading: one inner chunk *)
(** The decoded elements do not depend on the scratch buffer. *)
Definition decodes (x : bytes) : Prop :=
  (exists cells, buffer_of w (prod b) cells /\
     forall buf, buffer_of w (prod b) buf -> decompress (d_codec d) w x buf (prod b) = Ok cells) \/
  (exists e, forall buf, buffer_of w (prod b) buf -> decompress (d_codec d) w x buf (prod b) = Throw e).

Definition chunk_blob (raw : option (bytes * list (N * N))) (c : shape) (x : bytes) : Prop :=
  match x with
  | [] => raw_slot raw (slot_of sd c) = Ok None
  | _ => (exists bs o n, raw_slot raw (slot_of sd c) = Ok (Some (bs, (o, n))) /\ read_bytes bs o n = Ok x) /\
         decodes x
  end.

Definition slot_steady (st : store) (c : shape) : Prop :=
  forall x, sh_read_raw_chunk sd st c = Ok x -> x <> [] -> decodes x.

Lemma decode_steady c x : valid c -> complete_file d c x -> decodes x.
Proof.
  intros Hc HF. assert (HP : file_parts d x = Some (prod b, x)) by (unfold file_parts; now rewrite (so_zarr sok)).
  pose proof (@sized_buffer d (prod b) _ (zero_buffer d)) as HB0.
  pose proof (@unpack_spec d ok c b x x _ (or_intror eq_refl) Hc HF HP HB0) as HU.
  destruct (unpack d (prod b) x) as [y|] eqn:EU.
  - left. eexists. split; [apply HU|]. intros buf Hb.
    pose proof (@unpack_spec d ok c b x x _ (or_intror eq_refl) Hc HF HP Hb) as HV. rewrite EU in HV. apply HV.
  - right. destruct HU as [e He]. exists e. intros buf _. exact (decompress_throw He buf).
Qed.
Lemma complete_steady st c : valid c -> complete_slot sd st c -> slot_steady st c.
Proof. intros Hc H x Ex Hx. eapply decode_steady; eauto. Qed.

Lemma full_buffer_ok buf : any_buffer d buf ->
  buffer_of w (prod b) (if lenN buf =? prod b then buf else resize w (prod b) buf).
Proof. intros H. rewrite N.eqb_sym. now apply sized_buffer. Qed.

Definition same_end (p q : pmem * outcome (list cell)) : Prop :=
  fst p = fst q /\
  match snd p, snd q with
  | Ok x, Ok y => any_buffer d x /\ any_buffer d y
  | Throw e, Throw e' => e = e'
  | UB, UB => True
  | _, _ => False
  end.

Lemma shard_read_same size raw ov off n cs : (forall c, In c cs -> valid c /\ exists x, chunk_blob raw c x) ->
  forall m buf buf', any_buffer d buf -> any_buffer d buf' ->
  same_end (run (shard_read_code sd size raw ov off n cs buf) m) (run (shard_read_code sd size raw ov off n cs buf') m).
Proof.
  induction cs as [|c cs IH]; intros HC m buf buf' Hb Hb'; cbn [shard_read_code].
  { split; [reflexivity|]. cbn. auto. }
  destruct (HC c (or_introl eq_refl)) as (Hc & x & Hx). destruct (slot (valid_len Hc)) as [-> _]. cbn [plet].
  destruct (coords_in_roi s b c off n) as [r|e|]; cbn [plet]; [|split; reflexivity|split; [reflexivity|exact Logic.I]].
  change (match raw with None => Ok None | Some (b0, tbl) => let! e := getN tbl (slot_of sd c) in if snd e =? 0 then Ok None else Ok (Some (b0, e)) end)
    with (raw_slot raw (slot_of sd c)).
  assert (IH' := IH (fun c' H => HC c' (or_intror H))). clear IH.
  destruct x as [|x0 x]; cbn [chunk_blob] in Hx.
  - rewrite Hx. cbn [plet].
    destruct (pfill_cont size (subview ov (r_off_in_req r) (r_shape r)) (d_fill d) (indices (r_shape r)) m) as (m' & [E|E]); rewrite !E.
    + now apply IH'.
    + split; [reflexivity|exact Logic.I].
  - destruct Hx as [(bs & o & nb & -> & Erb) HF]. cbn [plet]. rewrite Erb. cbn [bind].
    rewrite (prodw_small (prod_chunks_small ok)).
    destruct HF as [(cells & HB & E)|(e & E)].
    + rewrite !E by now apply full_buffer_ok. cbn [plet].
      match goal with |- same_end (run (pcopy ?a ?b ?c ?d ?e _) _) _ => destruct (pcopy_cont a b c d e m) as (m' & [E'|E']) end; rewrite !E'.
      * apply IH'; eexists; exact HB.
      * split; [reflexivity|exact Logic.I].
    + rewrite !E by now apply full_buffer_ok. cbn [plet run]. split; reflexivity.
Qed.

(** The code against the sequential model. *)
Lemma run_shard_read raw ov off st cs : region_ok d off (v_shape ov) ->
  length (v_strides ov) = length (v_shape ov) -> (forall c, In c cs -> overlaps s b off (v_shape ov) c) ->
  forall buf l o, lists o l ->
  match foldM (shard_read_chunk sd raw ov off (v_shape ov)) cs (buf, l) with
  | Ok (buf', l') => lenN l' = lenN l /\ exists o', lists o' l' /\
      run (shard_read_code sd (lenN l) raw ov off (v_shape ov) cs buf) (st, o) = ((st, o'), Ok buf')
  | Throw e => exists o', run (shard_read_code sd (lenN l) raw ov off (v_shape ov) cs buf) (st, o) = ((st, o'), Throw e)
  | UB => True
  end.
Proof.
  intros Hreg V1. induction cs as [|c cs IH]; intros Hcs buf l o HL; cbn [foldM shard_read_code].
  { split; [reflexivity|]. exists o. auto. }
  specialize (IH (fun c' H => Hcs c' (or_intror H))). pose proof (Hcs c (or_introl eq_refl)) as Hovl.
  pose proof (overlaps_valid Hovl) as Hc. unfold shard_read_chunk at 1.
  destruct (coords_in_roi_exact (do_dims ok) (proj1 Hreg) (proj2 Hreg) Hovl) as (r & Er & R).
  destruct (roi_facts ok Hreg Hc R) as (F1 & F2 & _ & _). destruct (sub_length F1) as [L1 L2].
  destruct (slot (valid_len Hc)) as [-> _]. cbn [bind plet]. rewrite Er. cbn [bind plet].
  set (sel := match raw with None => Ok None | Some (b0, tbl) => _ end). clearbody sel.
  destruct sel as [[[bs [p nb]]|]|e|]; cbn [bind plet]; [| |eexists; reflexivity|exact Logic.I].
  - destruct (read_bytes bs p nb) as [x|e|]; cbn [bind plet]; [|eexists; reflexivity|exact Logic.I].
    destruct (decompress _ _ _ _ _) as [buf2|e|]; cbn [bind plet]; [|eexists; reflexivity|exact Logic.I].
    assert (LC : length b = length (r_shape r)).
    { destruct (sub_length (re_in_chunk R)) as [Q1 Q2]. destruct (extent_props ok Hc) as (_ & _ & E3 & _). apply all2_length in E3. lia. }
    rewrite copy_view_code.
    + pose proof (@run_pcopy buf2 (subview (make_view b) (r_off_in_chunk r) (r_shape r))
        (subview ov (r_off_in_req r) (r_shape r)) (indices (r_shape r))
        (shard_read_code sd (lenN l) raw ov off (v_shape ov) cs buf2) st o l HL) as U.
      cbn [v_shape subview]. destruct (writes _ _ _ l) as [l'|e|]; cbn [bind]; [|contradiction|exact Logic.I].
      destruct U as (L & o' & H & E). specialize (IH buf2 l' o' H). rewrite L in IH.
      destruct (foldM _ cs (buf2, l')) as [[buf3 l3]|e|]; [|destruct IH as (o3 & IH)|exact Logic.I].
      * destruct IH as (L3 & o3 & H3 & E3). split; [exact L3|]. exists o3. split; [exact H3|]. etransitivity; [exact E|exact E3].
      * exists o3. etransitivity; [exact E|exact IH].
    + cbn. rewrite c_strides_length. exact LC.
    + cbn. lia.
  - rewrite fill_view_code by (cbn; lia).
    pose proof (@run_pfill (subview ov (r_off_in_req r) (r_shape r)) (d_fill d) (indices (r_shape r))
      (shard_read_code sd (lenN l) raw ov off (v_shape ov) cs buf) st o l HL) as U.
    cbn [v_shape subview]. destruct (writes _ _ _ l) as [l'|e|]; cbn [bind]; [|contradiction|exact Logic.I].
    destruct U as (L & o' & H & E). specialize (IH buf l' o' H). rewrite L in IH.
    destruct (foldM _ cs (buf, l')) as [[buf3 l3]|e|]; [|destruct IH as (o3 & IH)|exact Logic.I].
    + destruct IH as (L3 & o3 & H3 & E3). split; [exact L3|]. exists o3. split; [exact H3|]. etransitivity; [exact E|exact E3].
    + exists o3. etransitivity; [exact E|exact IH].
Qed.

Lemma shard_read_safe raw ov off cs : region_ok d off (v_shape ov) ->
  (forall c, In c cs -> overlaps s b off (v_shape ov) c /\ exists x, chunk_blob raw c x) ->
  forall buf l, out_view_ok ov (lenN l) -> any_buffer d buf ->
  match foldM (shard_read_chunk sd raw ov off (v_shape ov)) cs (buf, l) with
  | Ok (buf', l') => any_buffer d buf' /\ lenN l' = lenN l
  | Throw _ => True
  | UB => False
  end.
Proof.
  intros Hreg. induction cs as [|c cs IH]; intros Hcs buf l Hov Hb; cbn [foldM]; [auto|].
  specialize (IH (fun c' H => Hcs c' (or_intror H))). destruct (Hcs c (or_introl eq_refl)) as [Hovl [x Hx]].
  pose proof (overlaps_valid Hovl) as Hc. unfold shard_read_chunk at 1.
  destruct (coords_in_roi_exact (do_dims ok) (proj1 Hreg) (proj2 Hreg) Hovl) as (r & Er & R).
  destruct (slot (valid_len Hc)) as [-> _]. cbn [bind]. rewrite Er. cbn [bind].
  change (match raw with None => Ok None | Some (b0, tbl) => let! e := getN tbl (slot_of sd c) in if snd e =? 0 then Ok None else Ok (Some (b0, e)) end)
    with (raw_slot raw (slot_of sd c)).
  destruct x as [|x0 x]; cbn [chunk_blob] in Hx.
  - rewrite Hx. cbn [bind].
    destruct (out_fill ok (d_fill d) Hreg Hov Hc R) as (l' & E & L & _). rewrite E. cbn [bind].
    specialize (IH buf l'). rewrite L in IH. now apply IH.
  - destruct Hx as [(bs & o & nb & -> & Erb) HF]. cbn [bind]. rewrite Erb. cbn [bind].
    rewrite (prodw_small (prod_chunks_small ok)).
    destruct HF as [(cells & HB & E)|(e & E)].
    2:{ rewrite E by now apply full_buffer_ok. exact Logic.I. }
    rewrite E by now apply full_buffer_ok. cbn [bind].
    assert (HL : lenN cells = prod (stored_shape d c)) by (rewrite (stored_b sok); apply HB).
    destruct (out_copy ok Hreg Hov Hc R HL) as (l' & E' & L & _). rewrite (stored_b sok) in E'. rewrite E'. cbn [bind].
    specialize (IH cells l'). rewrite L in IH. apply IH; [exact Hov|]. eexists; exact HB.
Qed.

(** ** Reading: one shard *)
Section ReadUnit.
Variables (ov : view) (off : shape) (st : store) (k : shape) (cs : list shape).
Hypothesis Hreg : region_ok d off (v_shape ov).
Hypothesis Hlen : length k = length b.
Hypothesis Hcs : forall c, In c cs -> overlaps s b off (v_shape ov) c /\ shard_of cps c = k.
Hypothesis Hcomp : forall c, In c cs -> slot_steady st c.

Lemma read_unit_raw : (read_shard_raw sd st k = Throw ERuntime) \/
  exists raw, read_shard_raw sd st k = Ok raw /\ forall c, In c cs -> overlaps s b off (v_shape ov) c /\ exists x, chunk_blob raw c x.
Proof.
  destruct (shard_cases st Hlen) as [[_ E]|(blobs & raw & _ & E & _ & SH & HB)]; [left; exact E|right].
  exists raw. split; [exact E|]. intros c Hc. destruct (Hcs Hc) as [Ho Hk]. split; [exact Ho|].
  destruct (HB c (valid_len (overlaps_valid Ho)) Hk) as (x & Hx & Ex). exists x. specialize (SH _ _ Hx).
  destruct x; [exact SH|]. split; [exact SH|]. apply (Hcomp Hc Ex). discriminate.
Qed.

Lemma run_shard_unit buf l o : length (v_strides ov) = length (v_shape ov) -> lists o l ->
  match shard_read_unit sd st ov off (v_shape ov) (buf, l) (k, cs) with
  | Ok (buf', l') => lenN l' = lenN l /\ exists o', lists o' l' /\
      run (shard_read_unit_code sd (lenN l) ov off (v_shape ov) (k, cs) buf) (st, o) = ((st, o'), Ok buf')
  | Throw e => exists o', run (shard_read_unit_code sd (lenN l) ov off (v_shape ov) (k, cs) buf) (st, o) = ((st, o'), Throw e)
  | UB => True
  end.
Proof.
  intros V1 HL. unfold shard_read_unit, shard_read_unit_code. cbn [fst snd].
  destruct (shard_handle_ok sok Hlen) as [bs E]. rewrite E. cbn [plet ch_key]. unfold pread. cbn [run fst snd].
  assert (ER : read_shard_raw sd (only (st (chunk_key (d_key d) k))) k = read_shard_raw sd st k).
  { unfold read_shard_raw. rewrite E. reflexivity. }
  rewrite ER. destruct (read_shard_raw sd st k) as [raw|e|]; cbn [bind plet]; [|eexists; reflexivity|exact Logic.I].
  apply run_shard_read; auto. intros c Hc. apply (Hcs Hc).
Qed.

Lemma shard_unit_same size m buf buf' : fst m = st -> any_buffer d buf -> any_buffer d buf' ->
  same_end (run (shard_read_unit_code sd size ov off (v_shape ov) (k, cs) buf) m)
           (run (shard_read_unit_code sd size ov off (v_shape ov) (k, cs) buf') m).
Proof.
  intros Em Hb Hb'. unfold shard_read_unit_code. cbn [fst snd].
  destruct (shard_handle_ok sok Hlen) as [bs E]. rewrite E. cbn [plet ch_key]. unfold pread. cbn [run fst snd]. rewrite Em.
  assert (ER : read_shard_raw sd (only (st (chunk_key (d_key d) k))) k = read_shard_raw sd st k).
  { unfold read_shard_raw. rewrite E. reflexivity. }
  rewrite ER. destruct read_unit_raw as [->|(raw & -> & HR)]; cbn [plet run].
  - split; reflexivity.
  - apply shard_read_same; auto. intros c Hc. destruct (HR c Hc) as [Ho Hx]. split; [|exact Hx]. eapply overlaps_valid; eauto.
Qed.

Lemma shard_unit_safe buf l : out_view_ok ov (lenN l) -> any_buffer d buf ->
  match shard_read_unit sd st ov off (v_shape ov) (buf, l) (k, cs) with
  | Ok (buf', l') => any_buffer d buf' /\ lenN l' = lenN l
  | Throw _ => True
  | UB => False
  end.
Proof.
  intros Hov Hb. unfold shard_read_unit. cbn [fst snd]. destruct read_unit_raw as [->|(raw & -> & HR)]; cbn [bind]; [exact Logic.I|].
  apply shard_read_safe; auto.
Qed.

Lemma conf_shard_read size raw buf : length (v_strides ov) = length (v_shape ov) ->
  pconf (out_locs d ov off cs) all_keys (shard_read_code sd size raw ov off (v_shape ov) cs buf).
Proof.
  intros V1.
  assert (GEN : forall cs', (forall c, In c cs' -> In c cs /\ overlaps s b off (v_shape ov) c) -> forall buf,
    pconf (out_locs d ov off cs) all_keys (shard_read_code sd size raw ov off (v_shape ov) cs' buf)).
  2:{ apply GEN. intros c H. split; [exact H|apply (Hcs H)]. }
  clear buf. intros cs'. induction cs' as [|c cs' IH]; intros HI buf; cbn [shard_read_code]; [constructor|].
  specialize (IH (fun c' H => HI c' (or_intror H))). destruct (HI c (or_introl eq_refl)) as [Hin Hovl].
  pose proof (overlaps_valid Hovl) as Hc.
  destruct (coords_in_roi_exact (do_dims ok) (proj1 Hreg) (proj2 Hreg) Hovl) as (r & Er & R).
  apply conf_plet. intros sl _. apply conf_plet. intros r' Er'. assert (r' = r) by congruence. subst r'. clear Er'.
  assert (HA : forall i, In i (indices (r_shape r)) -> out_locs d ov off cs (inr (view_addr (subview ov (r_off_in_req r) (r_shape r)) i))).
  { intros i Hi. destruct (roi_addr ok Hreg V1 Hc R Hi) as (x & Hx & [Ex|[]] & Ea). exists x. rewrite <- Ex. auto. }
  apply conf_plet. intros [[bs [p nb]]|] _.
  - apply conf_plet. intros buf2 _. apply conf_pcopy; [exact HA|apply IH].
  - apply conf_pfill; [exact HA|apply IH].
Qed.
Lemma conf_shard_unit size buf : length (v_strides ov) = length (v_shape ov) ->
  pconf (out_locs d ov off cs) all_keys (shard_read_unit_code sd size ov off (v_shape ov) (k, cs) buf).
Proof.
  intros V1. unfold shard_read_unit_code. apply conf_plet. intros h _. apply conf_pread; [right; exact Logic.I|]. intros f.
  apply conf_plet. intros raw _. now apply conf_shard_read.
Qed.
End ReadUnit.

(** ** Reading: the loop over shards *)
Section ReadUnits.
Variables (ov : view) (off : shape) (st : store) (l : list cell) (o : N -> cell) (gs : list (shape * list shape)).
Hypothesis Hreg : region_ok d off (v_shape ov).
Hypothesis Hov : out_view_ok ov (lenN l).
Hypothesis Hcomp : forall c, overlaps s b off (v_shape ov) c -> slot_steady st c.
Hypothesis Hl : lists o l.
Hypothesis Hgs : forall k cs, In (k, cs) gs -> cs <> [] /\ forall c, In c cs -> overlaps s b off (v_shape ov) c /\ shard_of cps c = k.
Hypothesis Hnd : NoDup (map fst gs).
Notation g0 := (@nil N, @nil (list N)).
Notation unit_code := (fun (_ i : nat) => shard_read_unit_code sd (lenN l) ov off (v_shape ov) (nth i gs g0)).
Notation b0 := (repeat (zero_cell w) (N.to_nat (prodw b))).

Lemma group_facts g : In g gs -> length (fst g) = length b /\
  (forall c, In c (snd g) -> overlaps s b off (v_shape ov) c /\ shard_of cps c = fst g).
Proof.
  destruct g as [k cs]. intros H. destruct (Hgs H) as [NE HO]. cbn [fst snd]. split; [|exact HO].
  destruct cs as [|c cs]; [congruence|]. destruct (HO c (or_introl eq_refl)) as [Ho <-].
  apply (shard_of_len sok), valid_len. eapply overlaps_valid; eauto.
Qed.

Lemma groups_disjoint i j c : (i < length gs)%nat -> (j < length gs)%nat -> i <> j ->
  In c (snd (nth i gs g0)) -> ~ In c (snd (nth j gs g0)).
Proof.
  intros Hi Hj Hij H1 H2. apply Hij.
  assert (E : fst (nth i gs g0) = fst (nth j gs g0)).
  { destruct (group_facts (nth_In gs g0 Hi)) as [_ G1]. destruct (group_facts (nth_In gs g0 Hj)) as [_ G2].
    rewrite <- (proj2 (G1 c H1)). apply (proj2 (G2 c H2)). }
  rewrite <- !(map_nth fst) in E. eapply (proj1 (NoDup_nth (map fst gs) (fst g0))); rewrite ?map_length; eauto.
Qed.

Lemma shard_units_ok : tasks_ok pget (length gs) (fun i tid => unit_code tid i) (any_buffer d)
    (fun i => out_locs d ov off (snd (nth i gs g0))) all_keys (st, o)
    (fun i => fst (run (unit_code 0%nat i b0) (st, o)))
    (fun i => ended (snd (run (unit_code 0%nat i b0) (st, o)))).
Proof.
  split.
  - intros i j x Hi Hj Hij. apply (out_locs_disjoint Hov). intros c H. now apply (@groups_disjoint i j c Hi Hj Hij).
  - intros i [k|a] Hi Fi; cbn in *; tauto.
  - intros i tid buf Hi. destruct (group_facts (nth_In gs g0 Hi)) as [LK HG].
    destruct (nth i gs g0) as [k cs]. cbn [fst snd] in *. apply conf_shard_unit; auto. apply Hov.
  - intros i tid buf Hi Hb. destruct (group_facts (nth_In gs g0 Hi)) as [LK HG].
    destruct (nth i gs g0) as [k cs]. cbn [fst snd] in *.
    assert (HC : forall c, In c cs -> slot_steady st c) by (intros c H; apply Hcomp, HG, H).
    pose proof (@shard_unit_same ov off st k cs LK HG HC (lenN l) (st, o) buf b0 eq_refl Hb (zero_buffer d)) as [S1 S2].
    pose proof (@run_shard_unit ov off st k cs Hreg LK HG buf l o (proj1 Hov) Hl) as R.
    pose proof (@shard_unit_safe ov off st k cs Hreg LK HG HC buf l Hov Hb) as SF.
    split; [intros x _; now rewrite S1|]. clear S1.
    destruct (shard_read_unit sd st ov off (v_shape ov) (buf, l) (k, cs)) as [[buf1 l1]|e1|]; [| |contradiction].
    + destruct R as (_ & o1 & _ & E1). rewrite E1 in *. cbn [snd] in *. destruct (snd _); cbn; try contradiction. apply SF.
    + destruct R as (o1 & E1). rewrite E1 in *. cbn [snd] in *. destruct (snd _); cbn; try contradiction. exact S2.
Qed.

Lemma shard_locs_dec x : (exists i, (i < length gs)%nat /\ out_locs d ov off (snd (nth i gs g0)) x) \/
  (forall i, (i < length gs)%nat -> ~ out_locs d ov off (snd (nth i gs g0)) x).
Proof.
  destruct (out_locs_dec d ov off (concat (map snd gs)) x) as [(i & Hi & Ei)|H].
  - left. destruct x as [k|a]; [contradiction|]. destruct Ei as (y & Hy & [Ec|[]] & Ea).
    pose proof (nth_In (concat (map snd gs)) [] Hi) as Hin. apply in_concat in Hin as (cs & Hcs & Hc).
    apply in_map_iff in Hcs as (g & <- & Hg). apply (In_nth _ _ g0) in Hg as (j & Hj & <-).
    exists j. split; [exact Hj|]. exists y. rewrite <- Ec. auto.
  - right. intros j Hj Ej. destruct x as [k|a]; [contradiction|]. destruct Ej as (y & Hy & Ec & Ea).
    assert (Hin : In (chunk_of b (vadd off y)) (concat (map snd gs))).
    { apply in_concat. exists (snd (nth j gs g0)). split; [|exact Ec]. apply in_map. now apply nth_In. }
    apply (In_nth _ _ []) in Hin as (i & Hi & Ei). apply (H i Hi). exists y. split; [exact Hy|]. split; [left; exact Ei|exact Ea].
Qed.
End ReadUnits.

Lemma run_shard_fold ov off st gs : region_ok d off (v_shape ov) -> length (v_strides ov) = length (v_shape ov) ->
  (forall g, In g gs -> length (fst g) = length b /\ forall c, In c (snd g) -> overlaps s b off (v_shape ov) c /\ shard_of cps c = fst g) ->
  forall l o buf, lists o l ->
  match foldM (shard_read_unit sd st ov off (v_shape ov)) gs (buf, l) with
  | Ok (buf', l') => lenN l' = lenN l /\ exists o', lists o' l' /\
      run (batch_prog (fun _ => shard_read_unit_code sd (lenN l) ov off (v_shape ov)) 0 gs buf) (st, o) = ((st, o'), Ok buf')
  | Throw e => snd (run (batch_prog (fun _ => shard_read_unit_code sd (lenN l) ov off (v_shape ov)) 0 gs buf) (st, o)) = Throw e
  | UB => True
  end.
Proof.
  intros Hreg V1. induction gs as [|[k cs] gs IH]; intros HG l o buf HL; cbn [foldM batch_prog].
  - split; [reflexivity|]. exists o. split; [exact HL|reflexivity].
  - destruct (HG _ (or_introl eq_refl)) as [LK HC]. cbn [fst snd] in *.
    pose proof (@run_shard_unit ov off st k cs Hreg LK HC buf l o V1 HL) as R. rewrite run_bind.
    destruct (shard_read_unit sd st ov off (v_shape ov) (buf, l) (k, cs)) as [[buf1 l1]|e|]; cbn [bind]; [| |exact Logic.I].
    + destruct R as (L1 & o1 & H1 & ->). specialize (IH (fun c' H => HG c' (or_intror H)) l1 o1 buf1 H1).
      rewrite L1 in IH. destruct (foldM _ gs (buf1, l1)) as [[buf2 l2]|e|]; auto.
    + destruct R as (o1 & ->). reflexivity.
Qed.

Lemma shard_fold_safe ov off st gs : region_ok d off (v_shape ov) ->
  (forall c, overlaps s b off (v_shape ov) c -> slot_steady st c) ->
  (forall g, In g gs -> length (fst g) = length b /\ forall c, In c (snd g) -> overlaps s b off (v_shape ov) c /\ shard_of cps c = fst g) ->
  forall l buf, out_view_ok ov (lenN l) -> any_buffer d buf ->
  foldM (shard_read_unit sd st ov off (v_shape ov)) gs (buf, l) <> UB.
Proof.
  intros Hreg Hcomp. induction gs as [|[k cs] gs IH]; intros HG l buf Hov Hb; cbn [foldM]; [discriminate|].
  destruct (HG _ (or_introl eq_refl)) as [LK HC]. cbn [fst snd] in *.
  pose proof (@shard_unit_safe ov off st k cs Hreg LK HC (fun c H => Hcomp c (proj1 (HC c H))) buf l Hov Hb) as SF.
  destruct (shard_read_unit sd st ov off (v_shape ov) (buf, l) (k, cs)) as [[buf1 l1]|e|]; cbn [bind]; [|discriminate|contradiction].
  destruct SF as [SF L]. apply IH; [intros g Hg; apply HG; now right|now rewrite L|exact SF].
Qed.

(** The requests and their groups. *)
Lemma request_groups off n : region_ok d off n ->
  exists reqs g, begin_request d off n = Ok reqs /\ chunks_per_shard (sd_shard sd) b = Ok cps /\ group_chunks cps reqs = Ok g /\
    (forall k cs, In (k, cs) g -> cs <> [] /\ forall c, In c cs -> overlaps s b off n c /\ shard_of cps c = k) /\
    NoDup (concat (map snd g)) /\ (forall c, In c (concat (map snd g)) <-> overlaps s b off n c) /\ NoDup (map fst g).
Proof.
  intros Hreg. destruct (begin_request_ok ok Hreg) as (reqs & E & ND & _ & HI).
  destruct (groups_ok sok ND HI) as (g & Eg & H). exists reqs, g. split; [exact E|]. split; [exact (cps_ok sok)|]. split; [exact Eg|exact H].
Qed.

Lemma sh_par_read_steady threads est ov off st l o o' r : region_ok d off (v_shape ov) -> out_view_ok ov (lenN l) ->
  (forall c, overlaps s b off (v_shape ov) c -> slot_steady st c) ->
  lists o l -> sh_read_run sd threads est st ov off (lenN l) o o' r ->
  match sh_read_subarray sd st ov off l with
  | Ok l' => r = Ok tt /\ lists o' l'
  | Throw e => r = Throw e
  | UB => False
  end /\
  (forall a, (forall i, in_shape (v_shape ov) i -> a <> out_addr ov i) -> o' a = o a).
Proof.
  intros Hreg Hov Hcomp Hl H. destruct (request_groups Hreg) as (reqs & gs & E1 & E2 & E3 & HG & _ & _ & ND).
  assert (EG : (let! reqs := begin_request d off (v_shape ov) in
     let! cps := chunks_per_shard (sd_shard sd) b in group_chunks cps reqs) = Ok gs) by (rewrite E1; cbn [bind]; rewrite E2; exact E3).
  destruct H as [gs' m1 r E' H|e E']; [|congruence]. assert (gs' = gs) by congruence. subst gs'. clear E'.
  pose proof (@group_facts ov off gs HG) as GF.
  pose proof (@shard_units_ok ov off st l o gs Hreg Hov Hcomp Hl HG ND) as U.
  destruct (schedule_independent U (@left_over_buffer d) (shard_locs_dec ov off gs) (zero_buffer d) H) as (S1 & S2 & S3 & S4).
  pose proof (@run_units _ _ _ (shard_read_unit_code sd (lenN l) ov off (v_shape ov)) gs ([], []) gs 0%nat
    (repeat (zero_cell w) (N.to_nat (prodw b))) (st, o) eq_refl) as RU.
  unfold foreach_sequential in *. rewrite RU in S1, S2.
  pose proof (@run_shard_fold ov off st gs Hreg (proj1 Hov) GF l o (repeat (zero_cell w) (N.to_nat (prodw b))) Hl) as F.
  pose proof (@shard_fold_safe ov off st gs Hreg Hcomp GF l _ Hov (zero_buffer d)) as NU.
  unfold sh_read_subarray. rewrite E1. cbn [bind]. rewrite E2. cbn [bind]. rewrite E3. cbn [bind].
  split.
  - destruct (foldM _ gs _) as [[buf' l']|e|]; cbn [bind snd] in *; [| |congruence].
    + destruct F as (L & o2 & H2 & E4). rewrite E4 in S1, S2. cbn [fst snd ended] in *. split; [exact S1|].
      intros a Ha. rewrite H2 by exact Ha. specialize (S2 S1 (inr a)). cbn in S2. congruence.
    + rewrite S1, F. reflexivity.
  - intros a Ha. assert (X : pget m1 (inr a) = pget (st, o) (inr a)).
    { apply S3. intros i _ (x & Hx & _ & Ea). eapply Ha; eauto. }
    cbn in X. congruence.
Qed.
Theorem sh_par_read threads est ov off st l o o' r : region_ok d off (v_shape ov) -> out_view_ok ov (lenN l) ->
  (forall c, overlaps s b off (v_shape ov) c -> complete_slot sd st c) ->
  lists o l -> sh_read_run sd threads est st ov off (lenN l) o o' r ->
  match sh_read_subarray sd st ov off l with
  | Ok l' => r = Ok tt /\ lists o' l'
  | Throw e => r = Throw e
  | UB => False
  end /\
  (forall a, (forall i, in_shape (v_shape ov) i -> a <> out_addr ov i) -> o' a = o a).
Proof. intros Hreg Hov HF. apply sh_par_read_steady; auto. intros c Hc. apply complete_steady; eauto using overlaps_valid. Qed.

(** ** Writing: one shard *)
Lemma existing_blob_steady c x : valid c -> (x <> [] -> decodes x) -> steady d (shard_existing sd x) c.
Proof.
  intros Hc HF. unfold steady. rewrite (stored_b sok). destruct x as [|x0 x].
  - left. exists None. split; [exact Logic.I|]. intros buf _. reflexivity.
  - destruct (HF ltac:(discriminate)) as [(cells & HB & E)|(e & E)].
    + left. exists (Some cells). split; [cbn; now rewrite (stored_b sok)|]. intros buf Hb. unfold shard_existing.
      rewrite (proj1 Hb), E by exact Hb. reflexivity.
    + right. exists e. intros buf Hb. unfold shard_existing. rewrite (proj1 Hb), E by exact Hb. reflexivity.
Qed.

(** The slots of the chunks that are still to be written. *)
Definition slots_good (blobs : list bytes) (cs : list shape) : Prop :=
  lenN blobs = prod cps /\
  forall c, In c cs -> exists x, getN blobs (slot_of sd c) = Ok x /\ (x <> [] -> decodes x).

Lemma shard_chunks_steady src off n k cs : region_ok d off n -> source_ok w n src ->
  (forall c, In c cs -> overlaps s b off n c /\ shard_of cps c = k) -> NoDup cs ->
  forall blobs, slots_good blobs cs ->
  (exists blobs', forall buf, any_buffer d buf ->
     exists buf', any_buffer d buf' /\ foldM (shard_write_chunk sd src off n) cs (buf, blobs) = Ok (buf', blobs')) \/
  (exists e, forall buf, any_buffer d buf -> foldM (shard_write_chunk sd src off n) cs (buf, blobs) = Throw e).
Proof.
  intros Hreg Hsrc. induction cs as [|c cs IH]; intros HO ND blobs [LB HS]; cbn [foldM].
  { left. exists blobs. intros buf Hb. exists buf. auto. }
  destruct (HO c (or_introl eq_refl)) as [Hov Hk]. pose proof (overlaps_valid Hov) as Hc.
  apply NoDup_cons_iff in ND as [Hni ND]. destruct (HS c (or_introl eq_refl)) as (x & Gx & HF).
  destruct (slot (valid_len Hc)) as [S1 S2]. unfold shard_write_chunk at 1 3.
  destruct (prepare_steady ok Hreg Hsrc Hov (existing_blob_steady Hc HF)) as [(buf1 & HB & E)|(e & E)].
  2:{ right. exists e. intros buf Hb. rewrite S1. cbn [bind]. rewrite Gx. cbn [bind]. rewrite E by exact Hb. reflexivity. }
  rewrite (stored_b sok) in HB. destruct (blob_made Hc HB) as [ob EO].
  assert (exists blobs1, setN blobs (slot_of sd c) (match ob with Some b => b | None => [] end) = Ok blobs1 /\
    lenN blobs1 = lenN blobs /\ forall i, i <> slot_of sd c -> getN blobs1 i = getN blobs i) as (blobs1 & ES & LS & GS2).
  { eexists. split; [apply setN_ok; now rewrite LB|]. split; [apply lenN_set_nth|]. intros i Hi. apply getN_set_other; auto. }
  assert (HB1 : any_buffer d buf1) by (eexists; exact HB).
  assert (STEP : forall buf, any_buffer d buf ->
     (let! slot := shard_slot c cps in let! blob := getN blobs slot in
      let! buffer' := prepare_chunk d off n c src (shard_existing sd blob) buf in
      let! ob := make_chunk_blob sd c buffer' in
      let! blobs' := setN blobs slot (match ob with Some b => b | None => [] end) in Ok (buffer', blobs')) = Ok (buf1, blobs1)).
  { intros buf Hb. rewrite S1. cbn [bind]. rewrite Gx. cbn [bind]. rewrite E by exact Hb. cbn [bind]. rewrite EO. cbn [bind].
    rewrite ES. reflexivity. }
  assert (GOOD : slots_good blobs1 cs).
  { split; [congruence|]. intros c' Hc'. destruct (HS c' (or_intror Hc')) as (x' & Gx' & HF'). exists x'. split; [|exact HF'].
    rewrite GS2; [exact Gx'|]. intros Eq. apply Hni. destruct (HO c' (or_intror Hc')) as [Hov' Hk'].
    replace c with c'; [exact Hc'|].
    apply (slot_inj sok (valid_len (overlaps_valid Hov')) (valid_len Hc)); congruence. }
  destruct (IH (fun c' H => HO c' (or_intror H)) ND blobs1 GOOD) as [(blobs' & R)|(e & R)].
  - left. exists blobs'. intros buf Hb. rewrite STEP by exact Hb. cbn [bind]. apply R. exact HB1.
  - right. exists e. intros buf Hb. rewrite STEP by exact Hb. cbn [bind]. apply R. exact HB1.
Qed.

Section WriteUnit.
Variables (src : source) (off n : shape) (k : shape) (cs : list shape).
Hypothesis Hreg : region_ok d off n.
Hypothesis Hsrc : source_ok w n src.
Hypothesis Hlen : length k = length b.
Hypothesis Hcs : forall c, In c cs -> overlaps s b off n c /\ shard_of cps c = k.
Hypothesis Hnd : NoDup cs.
Hypothesis Hw : can_write (d_mode d) = true.

Lemma shard_write_steady st : (forall c, In c cs -> slot_steady st c) ->
  (exists v, forall buf, any_buffer d buf ->
     exists buf', any_buffer d buf' /\ shard_write_unit sd src off n buf (k, cs) st = (set_key st (chunk_key (d_key d) k) v, Ok buf')) \/
  (exists e, forall buf, any_buffer d buf -> shard_write_unit sd src off n buf (k, cs) st = (st, Throw e)).
Proof.
  intros Hcomp. unfold shard_write_unit, sbind, reading, pure. cbn [fst snd].
  destruct (shard_cases st Hlen) as [[E _]|(blobs & raw & E & _ & LB & _ & HB)]; rewrite E; cbn [bind].
  { right. exists ERuntime. reflexivity. }
  destruct (@shard_chunks_steady src off n k cs Hreg Hsrc Hcs Hnd blobs) as [(blobs' & R)|(e & R)].
  - split; [exact LB|]. intros c Hc. destruct (Hcs Hc) as [Ho Hk].
    destruct (HB c (valid_len (overlaps_valid Ho)) Hk) as (x & Hx & Ex). exists x. split; [exact Hx|]. apply (Hcomp c Hc), Ex.
  - left. eexists. intros buf Hb. destruct (R buf Hb) as (buf' & HB' & ER). exists buf'. split; [exact HB'|].
    rewrite ER. cbn [fst snd]. rewrite blobs_written by auto. reflexivity.
  - right. exists e. intros buf Hb. now rewrite R.
Qed.

Lemma run_shard_write st st2 x buf : (forall key, st2 key = st key) ->
  exists st2', run (shard_write_unit_code sd src off n (k, cs) buf) (st2, x) =
      ((st2', x), snd (shard_write_unit sd src off n buf (k, cs) st)) /\
    (forall key, st2' key = fst (shard_write_unit sd src off n buf (k, cs) st) key).
Proof.
  intros HS. unfold shard_write_unit_code, shard_write_unit, sbind, reading, pure. cbn [fst snd].
  destruct (shard_handle_ok sok Hlen) as [bs E]. rewrite E. cbn [plet ch_key]. unfold pread. cbn [run fst snd]. rewrite HS.
  assert (ER : read_shard_blobs sd (only (st (chunk_key (d_key d) k))) k = read_shard_blobs sd st k).
  { unfold read_shard_blobs. rewrite E. reflexivity. }
  rewrite ER. clear ER. destruct (let! blobs := read_shard_blobs sd st k in _) as [[buf1 blobs1]|e|]; cbn [plet run fst snd].
  2,3: exists st2; auto.
  rewrite blobs_written by auto. unfold write_blobs_code. rewrite Hw, E. cbn [negb plet ch_key fst snd].
  destruct (all_slots_empty blobs1).
  - unfold pset. cbn [run fst snd]. eexists. split; [reflexivity|]. now apply set_eq.
  - rewrite run_write_code. rewrite !(store_write_ok ok). cbn [run fst snd]. eexists. split; [reflexivity|].
    intros key. rewrite set_set. now apply set_eq.
Qed.

Lemma conf_shard_write buf :
  pconf (one_key (chunk_key (d_key d) k)) (fun _ => False) (shard_write_unit_code sd src off n (k, cs) buf).
Proof.
  unfold shard_write_unit_code. cbn [fst snd]. destruct (shard_handle_ok sok Hlen) as [bs E]. rewrite E. cbn [plet ch_key].
  apply conf_pread; [left; reflexivity|]. intros f. apply conf_plet. intros r _. unfold write_blobs_code.
  rewrite Hw, E. cbn [negb plet ch_key]. destruct (all_slots_empty _).
  - apply conf_pset; [reflexivity|constructor].
  - apply conf_write_code; [reflexivity|constructor].
Qed.
End WriteUnit.

(** ** Writing: the loop over shards *)
Section WriteUnits.
Variables (src : source) (off n : shape) (st : store) (x : N -> cell) (gs : list (shape * list shape)).
Hypothesis Hreg : region_ok d off n.
Hypothesis Hsrc : source_ok w n src.
Hypothesis Hw : can_write (d_mode d) = true.
Hypothesis Hcomp : forall c, overlaps s b off n c -> slot_steady st c.
Hypothesis Hgs : forall g, In g gs -> length (fst g) = length b /\ NoDup (snd g) /\
  forall c, In c (snd g) -> overlaps s b off n c /\ shard_of cps c = fst g.
Hypothesis Hnd : NoDup (map fst gs).
Notation g0 := (@nil N, @nil (list N)).
Notation unit_code := (fun (_ i : nat) => shard_write_unit_code sd src off n (nth i gs g0)).
Notation b0 := (repeat (d_fill d) (N.to_nat (prodw b))).
Notation unit_key := (fun i => chunk_key (d_key d) (fst (nth i gs g0))).

Lemma shard_writes_ok : tasks_ok pget (length gs) (fun i tid => unit_code tid i) (any_buffer d)
    (fun i => one_key (unit_key i)) (fun _ => False) (st, x)
    (fun i => fst (run (unit_code 0%nat i b0) (st, x)))
    (fun i => ended (snd (run (unit_code 0%nat i b0) (st, x)))).
Proof.
  split.
  - intros i j l Hi Hj Hij -> E. unfold one_key in E. injection E as E. apply (key_inj ok) in E.
    apply Hij. rewrite <- !(map_nth fst) in E. eapply (proj1 (NoDup_nth (map fst gs) (fst g0))); rewrite ?map_length; eauto.
  - intros i l Hi _ [].
  - intros i tid buf Hi. destruct (Hgs (nth_In gs g0 Hi)) as (LK & _ & HG). destruct (nth i gs g0) as [k cs]. cbn [fst snd] in *.
    now apply conf_shard_write.
  - intros i tid buf Hi Hb. destruct (Hgs (nth_In gs g0 Hi)) as (LK & ND & HG). destruct (nth i gs g0) as [k cs]. cbn [fst snd] in *.
    destruct (@run_shard_write src off n k cs LK Hw st st x buf (fun _ => eq_refl)) as (s1 & -> & H1).
    destruct (@run_shard_write src off n k cs LK Hw st st x b0 (fun _ => eq_refl)) as (s2 & -> & H2).
    destruct (@shard_write_steady src off n k cs Hreg Hsrc LK HG ND Hw st (fun c H => Hcomp (proj1 (HG c H)))) as [(v & R)|(e & R)].
    + destruct (R buf Hb) as (f1 & I1 & E1). destruct (R b0 (fill_buffer ok)) as (f2 & I2 & E2). rewrite E1 in *. rewrite E2 in *.
      cbn [fst snd ended ends] in *. split; [|exact I1]. intros [key|a] _; cbn; [|reflexivity]. now rewrite H1, H2.
    + rewrite (R buf Hb) in *. rewrite (R b0 (fill_buffer ok)) in *. cbn [fst snd ended ends] in *. split; [|reflexivity].
      intros [key|a] _; cbn; [|reflexivity]. now rewrite H1, H2.
Qed.

Lemma shard_keys_dec l : (exists i, (i < length gs)%nat /\ one_key (unit_key i) l) \/
  (forall i, (i < length gs)%nat -> ~ one_key (unit_key i) l).
Proof.
  destruct l as [key|a]; [|right; intros i _ E; discriminate E].
  destruct (in_dec String.string_dec key (map (fun g => chunk_key (d_key d) (fst g)) gs)) as [H|H].
  - left. apply in_map_iff in H as (g & <- & Hg). apply (In_nth _ _ g0) in Hg as (i & Hi & <-). exists i. split; [exact Hi|reflexivity].
  - right. intros i Hi E. injection E as ->. apply H. apply (in_map (fun g => chunk_key (d_key d) (fst g))), nth_In, Hi.
Qed.
End WriteUnits.

Lemma run_shard_write_fold src off n gs : can_write (d_mode d) = true -> (forall g, In g gs -> length (fst g) = length b) ->
  forall buf st st2 x, (forall key, st2 key = st key) ->
  exists st2', run (batch_prog (fun _ => shard_write_unit_code sd src off n) 0 gs buf) (st2, x) =
      ((st2', x), snd (foldS (shard_write_unit sd src off n) gs buf st)) /\
    (forall key, st2' key = fst (foldS (shard_write_unit sd src off n) gs buf st) key).
Proof.
  intros Hw. induction gs as [|[k cs] gs IH]; intros HG buf st st2 x HS; cbn [batch_prog foldS].
  - exists st2. split; [reflexivity|exact HS].
  - rewrite run_bind. destruct (@run_shard_write src off n k cs (HG _ (or_introl eq_refl)) Hw st st2 x buf HS) as (st3 & -> & H3).
    unfold sbind. destruct (shard_write_unit sd src off n buf (k, cs) st) as [st1 [buf1|e|]]; cbn [fst snd] in *.
    + destruct (IH (fun c' H => HG c' (or_intror H)) buf1 st1 st3 x H3) as (st4 & E & H4). exists st4. split; auto.
    + exists st3. auto.
    + exists st3. auto.
Qed.

Lemma NoDup_concat_in (A : Type) (l : list (list A)) y : NoDup (concat l) -> In y l -> NoDup y.
Proof. intros H. apply (NoDup_concat_parts H). Qed.

Lemma sh_par_write_steady threads est src off n st st1 r : region_ok d off n -> source_ok w n src ->
  (forall c, overlaps s b off n c -> slot_steady st c) ->
  sh_write_run sd threads est src off n st st1 r ->
  r = snd (sh_write_request sd src off n st) /\
  (r = Ok tt -> forall key, st1 key = fst (sh_write_request sd src off n st) key) /\
  (forall key, (forall c, overlaps s b off n c -> key <> shard_key sd c) -> st1 key = st key) /\ r <> UB.
Proof.
  intros Hreg Hsrc Hcomp H. destruct (request_groups Hreg) as (reqs & gs & E1 & E2 & E3 & HG & ND1 & _ & ND).
  unfold sh_write_request, write_sharded, sbind, pure. rewrite E1 in *. cbn [bind] in H.
  destruct (can_write (d_mode d)) eqn:Hw; cbn [negb] in *.
  2:{ destruct H as [gs' m1 r E' H|e E']; rewrite E1 in E'; cbn [bind] in E'; rewrite Hw in E'; cbn [negb] in E'; [discriminate|].
      injection E' as <-. cbn. split; [reflexivity|]. split; [discriminate|]. split; [auto|discriminate]. }
  rewrite E2, E3. cbn [fst snd].
  destruct H as [gs' m1 r E' H|e E']; rewrite E1 in E'; cbn [bind] in E'; rewrite Hw, E2 in E'; cbn [negb bind] in E'; rewrite E3 in E'; [|discriminate].
  injection E' as <-.
  assert (GF : forall g, In g gs -> length (fst g) = length b /\ NoDup (snd g) /\
    forall c, In c (snd g) -> overlaps s b off n c /\ shard_of cps c = fst g).
  { intros [k cs] Hg. destruct (HG k cs Hg) as [NE HO]. cbn [fst snd]. split; [|split; [|exact HO]].
    - destruct cs as [|c cs]; [congruence|]. destruct (HO c (or_introl eq_refl)) as [Ho <-].
      apply (shard_of_len sok), valid_len. eapply overlaps_valid; eauto.
    - eapply NoDup_concat_in; [exact ND1|]. apply in_map_iff. exists (k, cs). auto. }
  pose proof (@shard_writes_ok src off n st (fun _ => []) gs Hreg Hsrc Hw Hcomp GF ND) as U.
  destruct (schedule_independent U (@left_over_buffer d) (shard_keys_dec gs) (fill_buffer ok) H) as (S1 & S2 & S3 & S4).
  pose proof (@run_units _ _ _ (shard_write_unit_code sd src off n) gs ([], []) gs 0%nat
    (repeat (d_fill d) (N.to_nat (prodw b))) (st, fun _ => []) eq_refl) as RU.
  unfold foreach_sequential in *. rewrite RU in S1, S2. clear RU.
  destruct (@run_shard_write_fold src off n gs Hw (fun g Hg => proj1 (GF g Hg)) (repeat (d_fill d) (N.to_nat (prodw b)))
     st st (fun _ => []) (fun _ => eq_refl)) as (st2 & EF & H2).
  rewrite EF in S1, S2. cbn [fst snd] in S1, S2. clear EF.
  assert (REST : forall key, (forall c, overlaps s b off n c -> key <> shard_key sd c) -> fst m1 key = st key).
  { intros key Hk. assert (X : pget m1 (inl key) = pget (st, fun _ => []) (inl key)).
    { apply S3. intros i Hi Ei. injection Ei as ->. pose proof (nth_In gs ([], []) Hi) as Hin.
      destruct (nth i gs ([], [])) as [k cs]. destruct (HG k cs Hin) as [NE HO]. destruct cs as [|c cs]; [congruence|].
      destruct (HO c (or_introl eq_refl)) as [Ho Hs]. apply (Hk c Ho). unfold shard_key. now rewrite Hs. }
    cbn in X. congruence. }
  destruct (foldS (shard_write_unit sd src off n) gs (repeat (d_fill d) (N.to_nat (prodw b))) st) as [st' [y|e|]]; cbn [fst snd ended] in *.
  - split; [exact S1|]. split; [|split; [exact REST|exact S4]].
    intros HO key. specialize (S2 HO (inl key)). cbn in S2. injection S2 as ->. apply H2.
  - split; [exact S1|]. split; [|split; [exact REST|exact S4]]. intros ->. discriminate.
  - congruence.
Qed.
Theorem sh_par_write threads est src off n st st1 r : region_ok d off n -> source_ok w n src ->
  (forall c, overlaps s b off n c -> complete_slot sd st c) ->
  sh_write_run sd threads est src off n st st1 r ->
  r = snd (sh_write_request sd src off n st) /\
  (r = Ok tt -> forall key, st1 key = fst (sh_write_request sd src off n st) key) /\
  (forall key, (forall c, overlaps s b off n c -> key <> shard_key sd c) -> st1 key = st key) /\ r <> UB.
Proof. intros Hreg Hsrc HF. apply sh_par_write_steady; auto. intros c Hc. apply complete_steady; eauto using overlaps_valid. Qed.

(** ** There is a run *)
Lemma sh_read_exists threads est ov off st l o : region_ok d off (v_shape ov) -> out_view_ok ov (lenN l) ->
  (forall c, overlaps s b off (v_shape ov) c -> complete_slot sd st c) -> lists o l ->
  exists o' r, sh_read_run sd threads est st ov off (lenN l) o o' r.
Proof.
  intros Hreg Hov Hcomp0 Hl.
  assert (Hcomp : forall c, overlaps s b off (v_shape ov) c -> slot_steady st c) by (intros c Hc; apply complete_steady; eauto using overlaps_valid). destruct (request_groups Hreg) as (reqs & gs & E1 & E2 & E3 & HG & _ & _ & ND).
  pose proof (@shard_units_ok ov off st l o gs Hreg Hov Hcomp Hl HG ND) as U.
  destruct (foreach_run_exists U (@left_over_buffer d) (ex_intro _ [] (Forall_nil _)) threads est (zero_buffer d)) as (m1 & r & R).
  exists (snd m1), r. econstructor; [|exact R]. rewrite E1; cbn [bind]; rewrite E2; exact E3.
Qed.
Lemma sh_write_exists_steady threads est src off n st : region_ok d off n -> source_ok w n src ->
  (forall c, overlaps s b off n c -> slot_steady st c) ->
  exists st1 r, sh_write_run sd threads est src off n st st1 r.
Proof.
  intros Hreg Hsrc Hcomp. destruct (request_groups Hreg) as (reqs & gs & E1 & E2 & E3 & HG & ND1 & _ & ND).
  destruct (can_write (d_mode d)) eqn:Hw.
  2:{ exists st, (Throw EInvalidArgument). apply sh_write_run_rejected. rewrite E1. cbn [bind]. rewrite Hw. reflexivity. }
  assert (GF : forall g, In g gs -> length (fst g) = length b /\ NoDup (snd g) /\
    forall c, In c (snd g) -> overlaps s b off n c /\ shard_of cps c = fst g).
  { intros [k cs] Hg. destruct (HG k cs Hg) as [NE HO]. cbn [fst snd]. split; [|split; [|exact HO]].
    - destruct cs as [|c cs]; [congruence|]. destruct (HO c (or_introl eq_refl)) as [Ho <-].
      apply (shard_of_len sok), valid_len. eapply overlaps_valid; eauto.
    - eapply NoDup_concat_in; [exact ND1|]. apply in_map_iff. exists (k, cs). auto. }
  pose proof (@shard_writes_ok src off n st (fun _ => []) gs Hreg Hsrc Hw Hcomp GF ND) as U.
  destruct (foreach_run_exists U (@left_over_buffer d) (ex_intro _ [] (Forall_nil _)) threads est (fill_buffer ok)) as (m1 & r & R).
  exists (fst m1), r. econstructor; [|exact R]. rewrite E1; cbn [bind]. rewrite Hw, E2. cbn [negb bind]. exact E3.
Qed.
Lemma sh_write_exists threads est src off n st : region_ok d off n -> source_ok w n src ->
  (forall c, overlaps s b off n c -> complete_slot sd st c) ->
  exists st1 r, sh_write_run sd threads est src off n st st1 r.
Proof.
  intros Hreg Hsrc Hcomp. apply sh_write_exists_steady; auto.
  intros c Hc. apply complete_steady; eauto using overlaps_valid.
Qed.
End Sharded.

(** ** There is a run, plain datasets *)
Section Plain.
Variable d : dataset.
Hypothesis ok : dataset_ok d.
Notation w := (t_width (d_type d)).
Notation s := (d_shape d).
Notation b := (d_chunks d).
Lemma read_exists threads est ov off st l o : region_ok d off (v_shape ov) -> out_view_ok ov (lenN l) ->
  (forall c file, overlaps s b off (v_shape ov) c -> st (chunk_key (d_key d) c) = Some file -> complete_file d c file) ->
  lists o l -> exists o' r, read_run d threads est st ov off (lenN l) o o' r.
Proof.
  intros Hreg Hov Hfiles Hl. destruct (begin_request_ok ok Hreg) as (reqs & E & ND & _ & HI).
  assert (Hdet : forall c, overlaps s b off (v_shape ov) c -> unit_steady d st ov off c) by (intros c Hc; apply file_unit_steady; eauto).
  pose proof (@read_units_ok d ok ov off st l o reqs Hreg Hov Hdet Hl (fun c => proj1 (HI c)) ND) as U.
  destruct (foreach_run_exists U (@left_over_buffer d) (ex_intro _ [] (Forall_nil _)) threads est (zero_buffer d)) as (m1 & r & R).
  exists (snd m1), r. econstructor; eauto.
Qed.
Lemma write_exists_steady threads est src off n st : region_ok d off n -> source_ok w n src ->
  (forall c, overlaps s b off n c -> steady d (plain_existing d st c) c) ->
  exists st1 r, write_run d threads est src off n st st1 r.
Proof.
  intros Hreg Hsrc Hold. destruct (begin_request_ok ok Hreg) as (reqs & E & ND & _ & HI).
  pose proof (@write_units_ok d ok src off n st (fun _ => []) reqs Hreg Hsrc Hold (fun c => proj1 (HI c)) ND) as U.
  destruct (foreach_run_exists U (@left_over_buffer d) (ex_intro _ [] (Forall_nil _)) threads est (fill_buffer ok)) as (m1 & r & R).
  exists (fst m1), r. econstructor; eauto.
Qed.
Lemma write_exists threads est src off n st : region_ok d off n -> source_ok w n src ->
  (forall c file, overlaps s b off n c -> st (chunk_key (d_key d) c) = Some file -> overwritable d c file) ->
  exists st1 r, write_run d threads est src off n st st1 r.
Proof.
  intros Hreg Hsrc Hfiles. apply write_exists_steady; auto. intros c Hc. apply existing_steady; eauto using overlaps_valid.
Qed.
End Plain.
