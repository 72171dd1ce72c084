(** Files written by other programs that follow the published formats. *)
From Coq Require Import String.
From Verif Require Import M_Base M_Text M_Key M_Blocking M_View M_Bytes M_N5Header M_Format M_Mode M_Shard M_Dataset M_Sharded M_Access M_Crc
  S_Array S_Grid S_Bytes S_Text S_Format S_Crc S_Shard S_Dataset S_Access S_File S_Sharded S_Layout S_Interop
  P_Base P_Blocking P_Roi P_View P_Bytes P_Key P_Format P_Crc P_Shard P_Dataset P_Access P_Read P_History P_File P_Sharded P_Layout.
Import List ListNotations.
Local Open Scope list_scope.
Local Open Scope N_scope.
Local Notation length := List.length.

Lemma be_reverse e : of_le_bytes (reverse_elem e) = value_be e.
Proof. rewrite reverse_elem_rev, of_le_value, <- value_be_rev, rev_involutive. reflexivity. Qed.

Lemma shape_entries file n : forall k, (k + N.of_nat n + 1) * 4 <= lenN file ->
  read_shape_entries file k n = Ok (map (fun i => slice file (4 + 4 * N.of_nat i) 4) (seq (N.to_nat k) n)).
Proof.
  induction n as [|n IH]; intros k H; [reflexivity|]. cbn [read_shape_entries seq map].
  rewrite read_bytes_ok by lia. cbn [bind]. rewrite IH by lia. cbn [bind].
  replace (N.to_nat (k + 1)) with (S (N.to_nat k)) by lia. do 2 f_equal. unfold slice. do 2 f_equal. lia.
Qed.

Lemma n5_header_read file : 4 + 4 * value_be (slice file 2 2) <= lenN file -> value_be (slice file 0 2) = 0 ->
  read_n5_header file = Ok (false, prodw (rev (n5_dims file)), 4 + 4 * value_be (slice file 2 2)).
Proof.
  intros L M. unfold read_n5_header. destruct (N.ltb_spec (lenN file) 4); [lia|].
  rewrite !read_bytes_ok by lia. cbn [bind]. rewrite !be_reverse. fold (slice file 0 2) (slice file 2 2). rewrite M.
  change (0 =? 1) with false. cbn match. set (nd := value_be (slice file 2 2)) in *.
  destruct (N.ltb_spec (lenN file) ((nd + 1) * 4 + 0)); [lia|].
  rewrite shape_entries by lia. cbn [bind]. do 2 f_equal; [|lia]. do 3 f_equal. unfold n5_dims. fold nd.
  unfold reverse_endian. rewrite !map_map. apply map_ext. intros i. apply be_reverse.
Qed.

Lemma slice_split w n x i : lenN x = n * w -> Forall is_byte x -> i < n ->
  slice x (i * w) w = cell_at (split_cells (N.to_nat n) w x) i.
Proof.
  intros L B Hi. pose proof (split_widths L B) as S. rewrite <- (slice_concat (buffer_widths S)) by (rewrite (proj1 S); exact Hi).
  f_equal. symmetry. clear S B Hi i. assert (L' : lenN x = N.of_nat (N.to_nat n) * w) by lia. clear L. revert x L'. generalize (N.to_nat n) as k.
  induction k as [|k IH]; intros x L; cbn [split_cells concat].
  - unfold lenN in L. destruct x; [reflexivity|cbn in L; lia].
  - rewrite IH; [apply firstn_skipn|]. unfold lenN in *. rewrite skipn_length. lia.
Qed.

Section WithDataset.
Variable d : dataset.
Hypothesis ok : dataset_ok d.
Variable decode : bytes -> N -> option bytes.
Hypothesis acc : accepts decode (d_codec d).
Notation w := (t_width (d_type d)).
Notation s := (d_shape d).
Notation b := (d_chunks d).
Notation A := (view_of d decode).
Notation valid := (valid_chunk (d_shape d) (d_chunks d)).

(** What the reader finds in a chunk file. *)
Definition block (file : bytes) (p : shape) : option (list N) :=
  if d_zarr d then zarr_block A file p else n5_block A file p.

(** The shape of the block in a file, if it is one that this library handles. *)
Definition block_shape (c : shape) (file : bytes) (sh : shape) : Prop :=
  if d_zarr d then sh = b else chunk_shape_of d c sh /\ n5_dims file = rev sh.

Lemma unpack_accepts e n x : decode e (n * w) = Some x -> lenN x = n * w ->
  Forall is_byte x /\ unpack d n e = Some x /\
  (cd_raw (d_codec d) = true -> Forall is_byte e /\ n * w <= lenN e) /\
  (cd_raw (d_codec d) = false -> cd_dec (d_codec d) e (n * w) = Ok x).
Proof using acc.
  intros E L. destruct (@acc _ _ _ E L) as [B H]. split; [exact B|]. unfold unpack.
  destruct (cd_raw (d_codec d)).
  - subst e. rewrite L, N.leb_refl. split; [reflexivity|]. split; [|discriminate]. intros _. split; [exact B|lia].
  - rewrite H. split; [reflexivity|]. split; [discriminate|auto].
Qed.

Lemma block_file c file sh p0 : valid c -> block_shape c file sh -> block file p0 <> None ->
  exists cells, complete_file d c file /\ file_cells d c file = Some (sh, cells) /\ buffer_of w (prod sh) cells /\
    forall p, in_shape sh p -> block file p = Some (cell_at cells (rowmajor sh p)).
Proof using ok acc.
  intros Hc Hsh Hb. unfold block_shape, block in *.
  assert (Q : chunk_shape_of d c sh) by (destruct (d_zarr d); [now right|apply Hsh]).
  destruct (shape_of_props ok Hc Q) as (Q1 & Q2 & Q3 & _).
  assert (SH : (if prod sh =? prod (chunk_extent s b c) then chunk_extent s b c else b) = sh).
  { destruct (extent_props ok Hc) as (E1 & _ & E3 & _).
    destruct Q as [->| ->]; [now rewrite N.eqb_refl|]. destruct (N.eqb_spec (prod b) (prod (chunk_extent s b c))) as [E|]; [|reflexivity].
    symmetry in E. now apply prod_eq_all2 in E. }
  assert (FIN : forall payload x, file_parts d file = Some (prod sh, payload) ->
    decode payload (prod sh * w) = Some x -> lenN x = prod sh * w ->
    let raw := split_cells (N.to_nat (prod sh)) w x in
    complete_file d c file /\ file_cells d c file = Some (sh, if d_zarr d then raw else map (@rev N) raw) /\
    buffer_of w (prod sh) raw /\ buffer_of w (prod sh) (if d_zarr d then raw else map (@rev N) raw)).
  { intros payload x HP E L raw. destruct (unpack_accepts E L) as (B & U & R1 & R2).
    assert (BR : buffer_of w (prod sh) raw) by now apply split_widths.
    split; [|split; [|split; [exact BR|]]].
    - intros sz pl H. rewrite HP in H. injection H as <- <-. split; [destruct Q as [->| ->]; auto|]. split; [exact R1|].
      intros R. rewrite (R2 R). split; assumption.
    - unfold file_cells. rewrite HP, U, SH. reflexivity.
    - destruct (d_zarr d); [exact BR|]. destruct BR as [LB FB]. split; [unfold lenN in *; rewrite map_length; exact LB|].
      apply Forall_map. eapply Forall_impl; [|exact FB]. intros e [Le Be]. split; [now rewrite lenN_rev|now apply Forall_rev]. }
  unfold file_parts in FIN. destruct (d_zarr d).
  - subst sh. unfold zarr_block in *. cbn [de_decode de_chunks de_width view_of] in *.
    destruct (decode file (prod b * w)) as [x|] eqn:E; [|now elim Hb].
    destruct (N.eqb_spec (lenN x) (prod b * w)) as [L|]; [|now elim Hb].
    destruct (FIN _ _ eq_refl E L) as (F1 & F2 & _ & F4). eexists. split; [exact F1|]. split; [exact F2|]. split; [exact F4|].
    intros p Hp. f_equal. apply slice_split; auto; [apply (unpack_accepts E L)|now apply rowmajor_lt].
  - destruct Hsh as [_ Hd]. unfold n5_block in *. cbn [de_decode de_width view_of] in *. rewrite Hd, prod_rev in *.
    destruct ((4 + 4 * value_be (slice file 2 2) <=? lenN file) && (value_be (slice file 0 2) =? 0)) eqn:G;
      [cbn [andb] in *|now elim Hb]. apply andb_true_iff in G as [G1 G2].
    destruct (inside (rev sh) (rev p0)); [|now elim Hb].
    destruct (decode (skipn _ file) (prod sh * w)) as [x|] eqn:E; [|now elim Hb].
    destruct (N.eqb_spec (lenN x) (prod sh * w)) as [L|]; [|now elim Hb].
    rewrite n5_header_read in FIN by lia. rewrite Hd, rev_involutive, (prodw_small Q2) in FIN.
    destruct (FIN _ _ eq_refl E L) as (F1 & F2 & F3 & F4). eexists. split; [exact F1|]. split; [exact F2|]. split; [exact F4|].
    intros p Hp. rewrite (proj2 (inside_spec (rev sh) (rev p)) (in_shape_rev Hp)). f_equal.
    rewrite colmajor_rev by (unfold in_shape in Hp; now apply Forall2_len in Hp).
    rewrite (@slice_split w (prod sh)); auto; [|apply (unpack_accepts E L)|now apply rowmajor_lt].
    unfold cell_at. change (@nil N) with (rev (@nil N)) at 2. now rewrite map_nth.
Qed.

(** An element is what its file says. *)
Lemma element_block st x : in_shape s x -> element_at A st x =
  match st (chunk_key (d_key d) (chunk_of b x)) with
  | None => Some (d_fill d)
  | Some file => block file (pos_of b x)
  end.
Proof using ok.
  intros Hx. pose proof (chunks_nonnil ok Hx) as Hn. unfold element_at, block. cbn [de_layout de_chunks view_of de_fill].
  fold (chunk_of b x) (pos_of b x). unfold layout_of, d_zarr. destruct (k_zarr (d_key d)) eqn:Z.
  - pose proof (@name_zarr (d_key d) _ Z Hn) as K. destruct (k_format (d_key d) =? 3); cbn [andb] in K; now rewrite <- K.
  - now rewrite <- (@name_n5 (d_key d) _ Z).
Qed.

(** Reads of foreign files. *)
Theorem foreign_read st ov off out : region_ok d off (v_shape ov) -> out_view_ok ov (lenN out) ->
  (forall i, in_shape (v_shape ov) i -> element_at A st (vadd off i) <> None) ->
  (d_zarr d = false -> forall c file, overlaps s b off (v_shape ov) c -> st (n5_name c) = Some file ->
     n5_dims file = rev (chunk_extent s b c) \/ n5_dims file = rev b) ->
  exists out', read_subarray d st ov off out = Ok out' /\ lenN out' = lenN out /\
    (forall i, in_shape (v_shape ov) i -> exists v, element_at A st (vadd off i) = Some v /\
       getN out' (v_off ov + lin (v_strides ov) i) = Ok v) /\
    (forall a, (forall i, in_shape (v_shape ov) i -> a <> v_off ov + lin (v_strides ov) i) -> getN out' a = getN out a).
Proof using ok acc.
  intros Hreg Hov He Hd.
  assert (Lo : length off = length (v_shape ov)).
  { destruct Hreg as [Hr _]. unfold valid_region in Hr. apply all3_length in Hr. lia. }
  assert (IS : forall i, in_shape (v_shape ov) i -> in_box off (v_shape ov) (vadd off i) /\ in_shape s (vadd off i)).
  { intros i Hi. assert (H : in_box off (v_shape ov) (vadd off i)) by now apply sub_in_box.
    split; [exact H|]. eapply region_in_shape; [apply Hreg|exact H]. }
  assert (CH : forall c file, overlaps s b off (v_shape ov) c -> st (chunk_key (d_key d) c) = Some file ->
    exists sh cells, complete_file d c file /\ file_cells d c file = Some (sh, cells) /\ chunk_shape_of d c sh /\
      forall p, in_shape sh p -> block file p = Some (cell_at cells (rowmajor sh p))).
  { intros c file (x & Hb & Hx) Hf.
    assert (Hc : valid c) by (eapply overlaps_valid; exists x; eauto).
    assert (exists sh, block_shape c file sh) as [sh Hsh].
    { unfold block_shape. destruct (d_zarr d) eqn:Z; [eexists; reflexivity|]. rewrite (@name_n5 (d_key d) _ Z) in Hf.
      destruct (Hd eq_refl c file) as [E|E]; [exists x; auto|exact Hf|eexists; split; [now left|exact E]|eexists; split; [now right|exact E]]. }
    destruct (in_box_sub Hb) as (i & Hi & ->). specialize (He i Hi). rewrite element_block in He by apply (IS i Hi).
    rewrite (in_chunk_of ok Hx), Hf in He. destruct (block_file Hc Hsh He) as (cells & H1 & H2 & H3 & H4).
    exists sh, cells. split; [exact H1|]. split; [exact H2|]. split; [|exact H4].
    unfold block_shape in Hsh. destruct (d_zarr d); [now right|apply Hsh]. }
  destruct (@read_files d ok ov off st out Hreg Hov) as (R1 & R2 & _).
  { intros c file H1 H2. destruct (CH c file H1 H2) as (sh & cells & H & _). exact H. }
  destruct R1 as [out' E].
  { intros c Hc file Hf. destruct (CH c file Hc Hf) as (sh & cells & _ & H & _). congruence. }
  exists out'. split; [exact E|]. destruct (R2 _ E) as (_ & L & V & F). split; [exact L|]. split; [|exact F].
  intros i Hi. destruct (IS i Hi) as [Hb Hx]. destruct (elem_chunk ok Hx) as (Hv & Hin & Hex & _).
  rewrite (element_block _ Hx). change (v_off ov + lin (v_strides ov) i) with (out_addr ov i). rewrite (V i Hi).
  unfold stored_value. destruct (st (chunk_key (d_key d) (chunk_of b (vadd off i)))) as [file|] eqn:Ef; [|eauto].
  destruct (CH (chunk_of b (vadd off i)) file) as (sh & cells & _ & F2 & F3 & F4); [now exists (vadd off i)|exact Ef|].
  rewrite F2. eexists. split; [|reflexivity]. apply F4. destruct F3 as [->| ->]; [exact Hex|].
  destruct (extent_props ok Hv) as (_ & _ & E3 & _). eapply in_shape_mono; eauto.
Qed.

(** ** Histories that start from foreign files *)
Hypothesis dec : undoes (prod (d_chunks d) * t_width (d_type d)) decode (d_codec d).

Definition held_at (st : store) (c : shape) (o : option (list cell)) : Prop :=
  match o with
  | None => st (chunk_key (d_key d) c) = None
  | Some data => exists file, st (chunk_key (d_key d) c) = Some file /\
      buffer_of w (prod (stored_shape d c)) data /\
      (forall p, in_shape (stored_shape d c) p -> block file p = Some (cell_at data (rowmajor (stored_shape d c) p))) /\
      (d_zarr d = false -> n5_dims file = rev (stored_shape d c))
  end.
Definition held_all (st : store) (C : shape -> option (list cell)) : Prop := forall c, valid c -> held_at st c (C c).

Lemma held_other st c c' v o : c <> c' -> held_at st c o -> held_at (set_key st (chunk_key (d_key d) c') v) c o.
Proof using ok.
  intros Hn. assert (chunk_key (d_key d) c <> chunk_key (d_key d) c') by (intros E; apply Hn; now apply (key_inj ok)).
  unfold held_at. destruct o as [data|]; rewrite set_key_other by auto; auto.
Qed.

Lemma own_held st c o : valid c -> chunk_holds d st c (option_map (fun data => (false, data)) o) -> held_at st c o.
Proof using ok dec.
  intros Hc H. destruct o as [data|]; cbn [option_map chunk_holds held_at] in *; [|exact H].
  destruct H as (file & E1 & E2 & E3 & E4 & _). specialize (E4 eq_refl). rewrite E4 in E3. exists file.
  split; [exact E1|]. split; [exact E3|]. pose proof (encoded_parts ok Hc E3 E2) as P. unfold block.
  destruct (d_zarr d) eqn:Z.
  - split; [|discriminate]. assert (Sb : stored_shape d c = b) by (unfold stored_shape; now rewrite Z).
    rewrite Sb in *. intros p Hp. now apply (zarr_block_ok ok dec).
  - destruct P as (e & -> & He). split; [intros p Hp; now apply (n5_block_ok ok dec)|]. intros _.
    destruct (@n5_header_parts (stored_shape d c) e) as (P1 & P2 & P3 & P4 & P5).
    { unfold stored_shape. rewrite Z. apply (header_shape ok Z Hc). reflexivity. }
    unfold n5_dims. now rewrite P2, P3.
Qed.

Lemma stored_of_shape c : chunk_shape_of d c (stored_shape d c).
Proof using. unfold stored_shape, chunk_shape_of. destruct (d_zarr d); auto. Qed.

Lemma held_existing st C c : held_all st C -> valid c ->
  content_ok d c (C c) /\ existing_ok d (plain_existing d st c) (prod (stored_shape d c)) (C c).
Proof using ok acc.
  intros H Hc. specialize (H c Hc). unfold existing_ok, content_ok, plain_existing, chunk_exists.
  destruct (C c) as [data|]; cbn [held_at] in H.
  - destruct H as (file & E & B & HB & HD). split; [exact B|]. intros buf Hbuf.
    rewrite (handle_ok ok Hc). cbn [bind ch_key]. rewrite E. cbn [negb].
    destruct (stored_props ok Hc) as (_ & SP & _ & SW & _). pose proof (shape_of_props ok Hc (stored_of_shape c)) as (Q1 & _).
    destruct (@rowmajor_onto (stored_shape d c) 0) as (p0 & Hp0 & _); [exact Q1|exact SW|].
    destruct (@block_file c file (stored_shape d c) p0) as (cells & F1 & F2 & F3 & F4); auto.
    { unfold block_shape. destruct (d_zarr d) eqn:Z; [unfold stored_shape; now rewrite Z|]. split; [apply stored_of_shape|auto]. }
    { rewrite (HB _ Hp0). discriminate. }
    rewrite (read_chunk_file ok Hc E F1 F2 Hbuf). cbn [bind fst snd]. do 2 f_equal.
    apply (nth_ext _ _ [] []); [destruct B, F3; unfold lenN in *; lia|]. intros i Hi.
    destruct (@rowmajor_onto (stored_shape d c) (N.of_nat i)) as (p & Hp & Ep); [destruct F3 as [LB _]; unfold lenN in LB; lia|exact SW|].
    pose proof (HB p Hp) as X. rewrite (F4 p Hp), Ep in X. injection X as X. unfold cell_at in X. now rewrite Nat2N.id in X.
  - split; [exact I|]. intros buf _. rewrite (handle_ok ok Hc). cbn [bind ch_key]. now rewrite H.
Qed.

Lemma held_set st C c o v : valid c -> held_all st C ->
  chunk_holds d (set_key st (chunk_key (d_key d) c) v) c (option_map (fun data => (false, data)) o) ->
  held_all (set_key st (chunk_key (d_key d) c) v) (upd C c o).
Proof using ok dec.
  intros Hc HC H c' Hc'. unfold upd. destruct (list_eq_dec N.eq_dec c' c) as [->|Hn]; [now apply own_held|].
  apply held_other; auto.
Qed.

Lemma held_unit src off n buf c st C : can_write (d_mode d) = true ->
  region_ok d off n -> source_ok w n src -> overlaps s b off n c -> any_buffer d buf -> held_all st C ->
  exists buf' v, write_unit d src off n buf c st =
      (set_key st (chunk_key (d_key d) c) v, Ok buf') /\ any_buffer d buf' /\
    prepared d off n c src (C c) buf' /\
    held_all (set_key st (chunk_key (d_key d) c) v) (upd C c (if all_fill d buf' then None else Some buf')).
Proof using ok acc dec.
  intros Hm Hreg Hsrc Hov Hbuf HC. pose proof (overlaps_valid Hov) as Hc.
  destruct (held_existing HC Hc) as [K1 K2].
  destruct (prepare_spec ok Hreg Hsrc Hov Hbuf K1 K2) as (buf' & E & P).
  destruct (@write_chunk_spec d ok c buf' st Hm Hc (proj1 P)) as (v & W & HW).
  exists buf', v. split.
  { unfold write_unit, sbind, reading, pure. rewrite E, W. reflexivity. }
  split; [eexists; apply P|]. split; [exact P|]. apply held_set; auto.
  cbn [op_result] in HW. destruct (all_fill d buf'); exact HW.
Qed.

Lemma held_fold src off n l : can_write (d_mode d) = true ->
  region_ok d off n -> source_ok w n src -> NoDup l -> (forall c, In c l -> overlaps s b off n c) ->
  forall buf st C, any_buffer d buf -> held_all st C ->
  exists buf' st' C', foldS (write_unit d src off n) l buf st = (st', Ok buf') /\
    held_all st' C' /\ wrote d off n src l C C'.
Proof using ok acc dec.
  intros Hm Hreg Hsrc. induction l as [|c l IH]; intros ND HO buf st C Hbuf HC.
  - exists buf, st, C. cbn. repeat split; auto; intros; match goal with H : In _ [] |- _ => destruct H end.
  - inversion ND as [|? ? N1 N2]; subst.
    destruct (@held_unit src off n buf c st C) as (buf1 & v & E & B1 & P & H1); auto.
    { apply HO; cbn; auto. }
    destruct (IH N2 (fun c' H => HO c' (or_intror H)) buf1 _ _ B1 H1) as (buf2 & st2 & C2 & E2 & H2 & W2).
    exists buf2, st2, C2. split.
    { cbn [foldS]. unfold sbind at 1. rewrite E. exact E2. }
    split; [exact H2|]. eapply wrote_cons; [exact N1| |exact W2]. apply (prepared_wrote ok); [|exact P].
    eapply overlaps_valid. apply HO. cbn; auto.
Qed.

Lemma held_request src off n st C : can_write (d_mode d) = true ->
  region_ok d off n -> source_ok w n src -> held_all st C ->
  exists st' C', write_request d src off n st = (st', Ok tt) /\ held_all st' C' /\
    (forall x, in_shape s x ->
       same_value d (val d C' x) (if in_boxb off n x then source_value src (vsub x off) else val d C x)).
Proof using ok acc dec.
  intros Hm Hreg Hsrc HC. destruct (begin_request_ok ok Hreg) as (l & E & ND & _ & HI).
  destruct (@held_fold src off n l Hm Hreg Hsrc ND (fun c H => proj1 (HI c) H) _ st C (fill_buffer ok) HC)
    as (buf' & st' & C' & E2 & H' & [W1 W2]).
  exists st', C'. split.
  { unfold write_request, write_plain, sbind, pure. rewrite E, E2. reflexivity. }
  split; [exact H'|]. intros x Hx. destruct (in_dec (list_eq_dec N.eq_dec) (chunk_of b x) l) as [Hin|Hn]; [now apply W1|].
  destruct (in_boxb off n x) eqn:Eb.
  - exfalso. apply Hn, HI. apply in_boxb_spec in Eb. exists x. split; [exact Eb|]. apply (elem_chunk ok), Hx.
  - unfold val. rewrite W2 by exact Hn. now left.
Qed.

Lemma held_op o st C a : can_write (d_mode d) = true -> array_op_ok d o ->
  held_all st C -> represents d C a ->
  exists st' C', run_array_op d o st = (st', Ok tt) /\ held_all st' C' /\ represents d C' (apply_op d o a).
Proof using ok acc dec.
  intros Hm Hok HC Ha. destruct o as [off n src|c data|c]; cbn [run_array_op array_op_ok] in *.
  - destruct Hok as [Hreg Hsrc]. destruct (held_request Hm Hreg Hsrc HC) as (st' & C' & E & H' & V).
    exists st', C'. split; [exact E|]. split; [exact H'|].
    intros x Hx. unfold apply_op. eapply same_value_trans; [apply V, Hx|].
    destruct (in_boxb off n x); [now left|apply Ha, Hx].
  - destruct Hok as [Hc Hd]. destruct (@write_chunk_spec d ok c data st Hm Hc Hd) as (v & W & HW).
    exists (set_key st (chunk_key (d_key d) c) v), (upd C c (if all_fill d data then None else Some data)).
    split; [exact W|]. split.
    + apply held_set; auto. cbn [op_result] in HW. destruct (all_fill d data); exact HW.
    + intros x Hx. unfold apply_op, val, upd.
      destruct (list_eq_dec N.eq_dec (chunk_of b x) c) as [E|Hn]; [|apply Ha, Hx].
      rewrite E. destruct (all_fill d data) eqn:Ef; cbn [chunk_val]; [|now left].
      apply same_fill. unfold all_fill in Ef. rewrite forallb_forall in Ef. apply Ef.
      pose proof (elem_stored ok Hx) as Hp. rewrite E in Hp. apply rowmajor_lt in Hp. destruct Hd as [Ld _].
      rewrite <- Ld in Hp. apply cell_at_getN, getN_ok, nth_error_In in Hp. exact Hp.
  - exists (set_key st (chunk_key (d_key d) c) None), (upd C c None).
    split; [now apply (remove_chunk_spec ok)|]. split.
    + apply held_set; auto. cbn. apply set_key_same.
    + intros x Hx. unfold apply_op, val, upd.
      destruct (list_eq_dec N.eq_dec (chunk_of b x) c) as [E|Hn]; [|apply Ha, Hx]. now left.
Qed.

Lemma held_ops ops : can_write (d_mode d) = true -> Forall (array_op_ok d) ops ->
  forall st C a, held_all st C -> represents d C a ->
  exists st' C', run_array_ops d ops st = (st', Ok tt) /\ held_all st' C' /\ represents d C' (apply_ops d ops a).
Proof using ok acc dec.
  intros Hm. unfold run_array_ops. induction 1 as [|o ops Ho Hops IH]; intros st C a HC Ha.
  - exists st, C. cbn. auto.
  - destruct (held_op Hm Ho HC Ha) as (st1 & C1 & E1 & H1 & R1).
    destruct (IH st1 C1 _ H1 R1) as (st2 & C2 & E2 & H2 & R2).
    exists st2, C2. split; [cbn [foldS]; unfold sbind at 1; rewrite E1; exact E2|]. auto.
Qed.

Lemma held_element st C x : held_all st C -> in_shape s x -> element_at A st x = Some (val d C x).
Proof using ok.
  intros HC Hx. destruct (elem_chunk ok Hx) as (Hv & _). pose proof (elem_stored ok Hx) as Hs.
  rewrite element_block by exact Hx. specialize (HC _ Hv). unfold val, chunk_val.
  destruct (C (chunk_of b x)) as [data|]; cbn [held_at] in HC.
  - destruct HC as (file & -> & _ & HB & _). now apply HB.
  - now rewrite HC.
Qed.

(** What a conforming set of files holds. *)
Definition contents (st : store) (c : shape) : option (list cell) :=
  match st (chunk_key (d_key d) c) with
  | None => None
  | Some file => option_map snd (file_cells d c file)
  end.

Lemma held_foreign st : (forall x, in_shape s x -> element_at A st x <> None) ->
  (d_zarr d = false -> forall c file, valid c -> st (n5_name c) = Some file -> n5_dims file = rev (chunk_extent s b c)) ->
  held_all st (contents st).
Proof using ok acc.
  intros He Hd c Hc. unfold contents. destruct (st (chunk_key (d_key d) c)) as [file|] eqn:Ef; [|exact Ef].
  destruct (extent_props ok Hc) as (E1 & E2 & E3 & E4).
  assert (Hp : in_shape (chunk_extent s b c) (map (fun _ => 0) (chunk_extent s b c))).
  { clear -E1. induction E1; cbn; constructor; auto. }
  destruct (elem_unique ok Hc Hp) as (Hx & Ec & Ep). specialize (He _ Hx). rewrite element_block, Ec, Ef in He by exact Hx.
  assert (HD : d_zarr d = false -> n5_dims file = rev (stored_shape d c)).
  { intros Z. unfold stored_shape. rewrite Z. apply (Hd Z); [exact Hc|]. now rewrite <- (@name_n5 (d_key d) _ Z). }
  assert (BS : block_shape c file (stored_shape d c)).
  { unfold block_shape. destruct (d_zarr d) eqn:Z; [unfold stored_shape; now rewrite Z|]. split; [apply stored_of_shape|auto]. }
  destruct (block_file Hc BS He) as (cells & F1 & F2 & F3 & F4).
  rewrite F2. cbn [option_map snd held_at]. exists file. auto.
Qed.

Theorem foreign_history ops st f : can_write (d_mode d) = true -> Forall (array_op_ok d) ops ->
  (forall x, in_shape s x -> element_at A st x = Some (f x)) ->
  (d_zarr d = false -> forall c file, valid c -> st (n5_name c) = Some file -> n5_dims file = rev (chunk_extent s b c)) ->
  exists st', run_array_ops d ops st = (st', Ok tt) /\
    (forall x, in_shape s x -> exists v, element_at A st' x = Some v /\ same_value d v (apply_ops d ops f x) /\
       (t_float (d_type d) = false -> v = apply_ops d ops f x)) /\
    (d_zarr d = false -> forall c file, valid c -> st' (n5_name c) = Some file -> n5_dims file = rev (chunk_extent s b c)).
Proof using ok acc dec.
  intros Hm Hops He Hd.
  assert (HC : held_all st (contents st)) by (apply held_foreign; auto; intros x Hx; rewrite He by exact Hx; discriminate).
  assert (CELL : forall st C, held_all st C -> forall x, in_shape s x -> lenN (val d C x) = w /\ Forall is_byte (val d C x)).
  { intros st0 C H0 x Hx. destruct (elem_chunk ok Hx) as (Hv & _). apply chunk_val_ok; auto; [|now apply (elem_stored ok)].
    apply (held_existing H0 Hv). }
  assert (HF : forall x, in_shape s x -> val d (contents st) x = f x).
  { intros x Hx. pose proof (held_element HC Hx) as E. rewrite He in E by exact Hx. congruence. }
  destruct (@held_ops ops Hm Hops st (contents st) f HC) as (st' & C' & E & HC' & HR).
  { intros x Hx. rewrite HF by exact Hx. now left. }
  exists st'. split; [exact E|]. split.
  - intros x Hx. exists (val d C' x). split; [now apply held_element|]. split; [now apply HR|]. intros Hf.
    destruct (CELL _ _ HC' x Hx) as [V1 V2].
    destruct (@apply_ops_cells d ok ops Hops f) with (x := x) as [A1 A2]; [|exact Hx|eapply same_value_int; eauto].
    intros y Hy. rewrite <- HF by exact Hy. now apply (CELL _ _ HC).
  - intros Z c file Hc Hf. rewrite <- (@name_n5 (d_key d) _ Z) in Hf. specialize (HC' c Hc). unfold held_at in HC'.
    destruct (C' c) as [data|]; [|congruence]. destruct HC' as (file' & E' & _ & _ & D). 
    rewrite E' in Hf. injection Hf as <-. rewrite (D Z). unfold stored_shape. now rewrite Z.
Qed.
End WithDataset.

(** ** Shards *)
Lemma slice_len (b : bytes) o n : o + n <= lenN b -> lenN (slice b o n) = n.
Proof. intros H. unfold slice, lenN in *. rewrite firstn_length, skipn_length. lia. Qed.
Lemma slice_bytes (b : bytes) o n : Forall is_byte b -> Forall is_byte (slice b o n).
Proof. intros H. unfold slice. now apply Forall_firstn, Forall_skipn. Qed.
Lemma skipn_add {X} a : forall b (l : list X), skipn a (skipn b l) = skipn (b + a) l.
Proof. intros b l. revert l. induction b as [|b IH]; intros [|x l]; cbn; auto. apply skipn_nil. Qed.
Lemma slice_slice (b : bytes) o n o' n' : o' + n' <= n -> slice (slice b o n) o' n' = slice b (o + o') n'.
Proof.
  intros H. unfold slice. rewrite skipn_firstn_comm, firstn_firstn, skipn_add. f_equal; [lia|]. f_equal. lia.
Qed.

Lemma le64_slice file o : Forall is_byte file -> o + 8 <= lenN file -> read_le64 file o = Ok (value_le (slice file o 8)).
Proof.
  intros B H. unfold read_le64. rewrite read_bytes_ok by exact H. cbn [bind]. f_equal. apply read_le_value.
  now apply (slice_bytes (b := file) o 8).
Qed.
Lemma le32_slice file o : Forall is_byte file -> o + 4 <= lenN file -> read_le32 file o = Ok (value_le (slice file o 4)).
Proof.
  intros B H. unfold read_le32. rewrite read_bytes_ok by exact H. cbn [bind]. f_equal. apply read_le_value.
  now apply (slice_bytes (b := file) o 4).
Qed.

Section ForeignShard.
Variable per : shape.
Variable file : bytes.
Hypothesis fb : Forall is_byte file.
Hypothesis tidy : intact_shard per file.

Definition entry_of (k : N) : entry := Entry (fst (shard_entry per file k)) (snd (shard_entry per file k)).
Definition entries_of : list entry := map (fun k => entry_of (N.of_nat k)) (seq 0 (N.to_nat (prod per))).
Definition blob_of (k : N) : bytes :=
  if entry_empty (entry_of k) then [] else slice file (e_offset (entry_of k)) (e_nbytes (entry_of k)).
Definition blobs_of : list bytes := map (fun k => blob_of (N.of_nat k)) (seq 0 (N.to_nat (prod per))).

Hypothesis small : lenN file < W64 - 1.

Lemma entry_cases k : k < prod per ->
  (entry_of k = Entry SHARD_EMPTY SHARD_EMPTY /\ blob_of k = []) \/
  (entry_empty (entry_of k) = false /\ 0 < e_nbytes (entry_of k) /\
   e_offset (entry_of k) + e_nbytes (entry_of k) <= lenN file - (16 * prod per + 4) /\
   blob_of k = slice file (e_offset (entry_of k)) (e_nbytes (entry_of k)) /\ blob_of k <> []).
Proof using tidy small.
  intros Hk. destruct tidy as (T1 & T2 & T3). destruct (T3 k Hk) as [E|[E1 E2]].
  - left. unfold blob_of, entry_of. rewrite E. cbn [fst snd]. split; reflexivity.
  - right. fold (e_offset (entry_of k)) (e_nbytes (entry_of k)) in E2. change (snd (shard_entry per file k)) with (e_nbytes (entry_of k)) in *.
    change (fst (shard_entry per file k)) with (e_offset (entry_of k)) in *.
    assert (EE : entry_empty (entry_of k) = false).
    { unfold entry_empty, SHARD_EMPTY. destruct (N.eqb_spec (e_offset (entry_of k)) (W64 - 1)); [lia|].
      destruct (N.eqb_spec (e_nbytes (entry_of k)) (W64 - 1)); [lia|reflexivity]. }
    split; [exact EE|]. split; [exact E1|]. split; [exact E2|].
    assert (EB : blob_of k = slice file (e_offset (entry_of k)) (e_nbytes (entry_of k))) by (unfold blob_of; now rewrite EE).
    split; [exact EB|]. intros N0. rewrite EB in N0. apply (f_equal (@lenN N)) in N0. rewrite slice_len, lenN_nil in N0 by lia. lia.
Qed.

Lemma parse_tidy : forall n s, s + N.of_nat n <= prod per ->
  parse_entries file (lenN file - (16 * prod per + 4)) s n =
    Ok (Some (map (fun k => entry_of (N.of_nat k)) (seq (N.to_nat s) n))).
Proof using fb tidy small.
  destruct tidy as (T1 & T2 & T3). induction n as [|n IH]; intros s H; [reflexivity|]. cbn [parse_entries seq map].
  rewrite !le64_slice by (auto; lia). cbn [bind].
  assert (Q1 : value_le (slice file (lenN file - (16 * prod per + 4) + 16 * s) 8) = e_offset (entry_of s)).
  { unfold entry_of, shard_entry. cbn [fst e_offset]. now rewrite slice_slice by lia. }
  assert (Q2 : value_le (slice file (lenN file - (16 * prod per + 4) + 16 * s + 8) 8) = e_nbytes (entry_of s)).
  { unfold entry_of, shard_entry. cbn [snd e_nbytes]. rewrite slice_slice by lia. now rewrite N.add_assoc. }
  rewrite Q1, Q2. change (Entry (e_offset (entry_of s)) (e_nbytes (entry_of s))) with (entry_of s).
  replace (negb (entry_empty (entry_of s)) && ((lenN file - (16 * prod per + 4) <? e_offset (entry_of s)) ||
    (lenN file - (16 * prod per + 4) - e_offset (entry_of s) <? e_nbytes (entry_of s)))) with false.
  - rewrite IH by lia. cbn [bind]. rewrite N2Nat.id. replace (N.to_nat (s + 1)) with (S (N.to_nat s)) by lia. reflexivity.
  - symmetry. destruct (@entry_cases s) as [[-> _]|(-> & H1 & H2 & _)]; [lia|reflexivity|]. cbn [negb andb].
    apply orb_false_iff. split; apply N.ltb_ge; lia.
Qed.

Lemma parse_foreign : parse_shard_index file (prod per) = Ok (Some entries_of).
Proof using fb tidy small.
  pose proof tidy as (T1 & T2 & T3). unfold parse_shard_index.
  destruct (N.ltb_spec (lenN file) (16 * prod per + 4)); [lia|]. rewrite le32_slice by (auto; lia). cbn [bind].
  rewrite read_bytes_ok by lia. cbn [bind].
  change (firstn (N.to_nat (16 * prod per)) (skipn (N.to_nat (lenN file - (16 * prod per + 4))) file)) with
    (slice file (lenN file - (16 * prod per + 4)) (16 * prod per)).
  rewrite crc32c_is_castagnoli by now apply slice_bytes. rewrite <- T2, N.eqb_refl. cbn [negb].
  rewrite (@parse_tidy (N.to_nat (prod per)) 0) by lia. reflexivity.
Qed.

Lemma extract_foreign : extract_shard_blobs file entries_of = Ok blobs_of /\
  Forall2 (fun e x => entry_empty e = true <-> x = []) entries_of blobs_of.
Proof using tidy small.
  unfold entries_of, blobs_of. pose proof tidy as (T1 & _).
  assert (forall k, In k (seq 0 (N.to_nat (prod per))) -> N.of_nat k < prod per) as HI.
  { intros k H. apply in_seq in H. lia. }
  revert HI. generalize (seq 0 (N.to_nat (prod per))) as l. induction l as [|k l IH]; intros HI; cbn [map extract_shard_blobs]; [split; constructor|].
  destruct IH as [I1 I2]; [intros j Hj; apply HI; cbn; auto|].
  destruct (@entry_cases (N.of_nat k)) as [[E EB]|(E1 & E2 & E3 & E4 & E5)]; [apply HI; cbn; auto| |].
  - split.
    + rewrite I1. cbn [bind]. unfold blob_of. rewrite E. reflexivity.
    + constructor; [|exact I2]. rewrite E, EB. split; reflexivity.
  - split.
    + rewrite I1, E1. rewrite read_bytes_ok by lia. cbn [bind]. rewrite E4. reflexivity.
    + constructor; [|exact I2]. rewrite E1. split; [discriminate|intros Z; now elim E5].
Qed.

Lemma blobs_of_len : lenN blobs_of = prod per.
Proof using. clear small tidy fb. unfold blobs_of, lenN. rewrite map_length, seq_length. lia. Qed.
Lemma blobs_of_at k : k < prod per -> getN blobs_of k = Ok (blob_of k).
Proof using. clear small tidy fb.
  intros H. apply getN_ok. unfold blobs_of. rewrite nth_error_map. 
  rewrite (nth_error_nth' _ 0%nat) by (rewrite seq_length; lia). rewrite seq_nth by lia. cbn [option_map]. do 2 f_equal. lia.
Qed.
Lemma blobs_of_size : Forall (fun x => lenN x <= lenN file) blobs_of.
Proof using. clear small tidy fb.
  apply Forall_map, Forall_forall. intros k _. unfold blob_of. destruct (entry_empty _); [rewrite lenN_nil; lia|].
  unfold slice, lenN. rewrite firstn_length, skipn_length. lia.
Qed.

Lemma block_foreign A c p : let k := rowmajor per (map2 N.modulo c per) in k < prod per ->
  shard_block A per file c p = match blob_of k with [] => Some (de_fill A) | _ => zarr_block A (blob_of k) p end.
Proof using tidy small.
  intros k Hk. pose proof tidy as (T1 & T2 & T3). unfold shard_block.
  destruct (N.leb_spec (16 * prod per + 4) (lenN file)); [|lia]. rewrite T2, N.eqb_refl. fold k.
  change (value_le (slice (slice file (lenN file - (16 * prod per + 4)) (16 * prod per)) (16 * k) 8)) with (e_offset (entry_of k)).
  change (value_le (slice (slice file (lenN file - (16 * prod per + 4)) (16 * prod per)) (16 * k + 8) 8)) with (e_nbytes (entry_of k)).
  destruct (entry_cases Hk) as [[-> ->]|(E1 & E2 & E3 & E4 & E5)]; [reflexivity|].
  unfold entry_empty in E1. apply orb_false_iff in E1 as [E1 _]. change SHARD_EMPTY with (2 ^ 64 - 1) in E1. rewrite E1. cbn [andb].
  destruct (N.leb_spec (e_offset (entry_of k) + e_nbytes (entry_of k)) (lenN file)); [|lia].
  rewrite <- E4. destruct (blob_of k); [now elim E5|reflexivity].
Qed.
End ForeignShard.

Section ForeignSharded.
Variable sd : sharded.
Hypothesis sok : sharded_ok sd.
Notation d := (sd_base sd).
Notation w := (t_width (d_type (sd_base sd))).
Notation s := (d_shape (sd_base sd)).
Notation b := (d_chunks (sd_base sd)).
Notation cps := (sd_cps sd).
Notation valid := (valid_chunk (d_shape (sd_base sd)) (d_chunks (sd_base sd))).
Variable decode : bytes -> N -> option bytes.
Hypothesis acc : accepts decode (d_codec (sd_base sd)).
Hypothesis dec : undoes (prod (d_chunks (sd_base sd)) * t_width (d_type (sd_base sd))) decode (d_codec (sd_base sd)).
Notation A := (sharded_view sd decode).
Let ok : dataset_ok d := so_base sok.

Definition reader_blob (e : bytes) (data : list cell) : Prop := decode e (prod b * w) = Some (concat data).
Definition reader_shard (file : bytes) (blobs : list bytes) : Prop :=
  forall c p x, length c = length b -> getN blobs (slot_of sd c) = Ok x ->
    shard_block A cps file c p = match x with [] => Some (d_fill d) | _ => zarr_block A x p end.

Lemma reader_blob_ok data e : buffer_of w (prod b) data -> stored_as (d_codec d) (concat data) e -> reader_blob e data.
Proof using sok dec.
  intros B E. unfold reader_blob. pose proof (lenN_concat (buffer_widths B)) as L. rewrite (proj1 B) in L. rewrite <- L.
  pose proof (do_width ok). pose proof (prod_chunks_pos ok). apply dec; [apply (concat_bytes B)| | |exact E]; rewrite L; nia.
Qed.
Lemma reader_shard_ok blobs : lenN blobs = prod cps -> lenN (concat blobs) < W64 - 1 -> reader_shard (build_shard blobs) blobs.
Proof using sok. intros L T c p x Lc G. now apply (shard_element sok). Qed.

(** The inner chunks of foreign shards. *)
Definition shard_contents (st : store) (c : shape) : option (list cell) :=
  match st (shard_key sd c) with
  | None => None
  | Some file =>
      match blob_of cps file (slot_of sd c) with
      | [] => None
      | e => match decode e (prod b * w) with Some x => Some (split_cells (N.to_nat (prod b)) w x) | None => None end
      end
  end.

Lemma concat_cells x : lenN x = prod b * w -> Forall is_byte x -> concat (split_cells (N.to_nat (prod b)) w x) = x.
Proof using.
  intros L _. assert (L' : lenN x = N.of_nat (N.to_nat (prod b)) * w) by lia. clear L. revert x L'. generalize (N.to_nat (prod b)) as k.
  induction k as [|k IH]; intros x L; cbn [split_cells concat].
  - unfold lenN in L. destruct x; [reflexivity|cbn in L; lia].
  - rewrite IH; [apply firstn_skipn|]. unfold lenN in *. rewrite skipn_length. lia.
Qed.

Lemma element_shard st x : in_shape s x -> element_at A st x =
  match st (shard_key sd (chunk_of b x)) with
  | None => Some (d_fill d)
  | Some file => shard_block A cps file (chunk_of b x) (pos_of b x)
  end.
Proof using sok.
  intros Hx. pose proof (chunks_nonnil ok Hx) as Hn. destruct (elem_chunk ok Hx) as (Hv & _).
  unfold element_at. cbn [de_layout de_chunks sharded_view sharded_layout de_fill]. rewrite (per_ok sok).
  fold (chunk_of b x) (pos_of b x). fold (shard_of cps (chunk_of b x)).
  assert (Lc : length (chunk_of b x) = length b) by apply (valid_length Hv).
  assert (Hk : shard_of cps (chunk_of b x) <> []).
  { intros E. pose proof (shard_of_len sok Lc) as L. rewrite E in L. rewrite <- Lc in L. now destruct (chunk_of b x). }
  rewrite <- (name_zarr (so_zarr sok) Hk). reflexivity.
Qed.

Lemma block_value e p : zarr_block A e p <> None -> e <> [] -> exists x, decode e (prod b * w) = Some x /\
  lenN x = prod b * w /\ Forall is_byte x /\
  blob_rel sd reader_blob [] (Some (split_cells (N.to_nat (prod b)) w x)) e /\
  forall q, in_shape b q -> zarr_block A e q = Some (cell_at (split_cells (N.to_nat (prod b)) w x) (rowmajor b q)).
Proof using sok acc.
  intros H He. unfold zarr_block in H |- *. cbn [de_decode de_chunks de_width sharded_view] in *.
  destruct (decode e (prod b * w)) as [x|] eqn:E; [|now elim H].
  destruct (N.eqb_spec (lenN x) (prod b * w)) as [L|]; [|now elim H].
  destruct (@acc _ _ _ E L) as [B R]. exists x. split; [reflexivity|]. split; [exact L|]. split; [exact B|]. split.
  - cbn [blob_rel]. split; [exact He|]. split; [now apply split_widths|]. split.
    + intros out Ho. unfold decompress. pose proof (stored_props ok) as SP.
      assert (PW : prod b * w < W64) by (pose proof (do_bytes ok); lia).
      rewrite mulw_small by lia. destruct (cd_raw (d_codec d)).
      * subst e. rewrite L, N.ltb_irrefl. now apply put_full.
      * rewrite R. cbn [bind]. now apply put_full.
    + unfold reader_blob. rewrite concat_cells; auto.
  - intros q Hq. f_equal. apply slice_split; auto. now apply rowmajor_lt.
Qed.

Lemma held_shards M m st : prod cps * m < W64 - 1 ->
  (forall data, buffer_of w (prod b) data -> forall e, stored_as (d_codec d) (concat data) e -> 0 < lenN e /\ lenN e <= m) ->
  M <= m -> 
  (forall x, in_shape s x -> element_at A st x <> None) ->
  (forall c file, valid c -> st (shard_key sd c) = Some file ->
     Forall is_byte file /\ intact_shard cps file /\ lenN file <= M) ->
  holds_sh sd m reader_blob reader_shard (fun _ => True) st (shard_contents st).
Proof using sok acc.
  intros Hm Hblob HM He Hs c Hc _. pose proof (slots_small sok Hm Hblob) as [_ SM].
  assert (P1 : 0 < prod cps) by apply prod_pos, (cps_pos sok).
  destruct (st (shard_key sd c)) as [file|] eqn:Ef.
  - destruct (Hs c file Hc Ef) as (FB & FT & FL). assert (small : lenN file < W64 - 1) by nia.
    exists (blobs_of cps file). pose proof (blobs_of_len cps file) as L.
    assert (F : Forall (fun x => lenN x <= m) (blobs_of cps file)).
    { eapply Forall_impl; [|apply blobs_of_size]. cbn. intros x Hx. lia. }
    split; [split; [exact L|split; [exact F|]]|split; [exact L|split; [exact F|]]].
    + change (chunk_key (d_key d) (shard_of cps c)) with (shard_key sd c). rewrite Ef. split.
      * intros c' p x Lc' Gx. destruct (slot_ok sok Hm Hblob Lc') as [_ Hlt]. rewrite (blobs_of_at _ Hlt) in Gx. injection Gx as <-.
        apply (@block_foreign cps file FT small A c' p). exact Hlt.
      * exists (entries_of cps file). split; [now apply parse_foreign|]. now apply extract_foreign.
    + intros c' Hc' Hsh. pose proof (valid_len Hc') as Lc'. destruct (slot_ok sok Hm Hblob Lc') as [_ Hlt].
      exists (blob_of cps file (slot_of sd c')). split; [now apply blobs_of_at|].
      assert (Ef' : st (shard_key sd c') = Some file) by (unfold shard_key in *; congruence).
      unfold shard_contents. rewrite Ef'.
      destruct (extent_props ok Hc') as (E1 & E2 & E3 & E4).
      assert (Hp : in_shape (chunk_extent s b c') (map (fun _ => 0) (chunk_extent s b c'))).
      { clear -E1. induction E1; cbn; constructor; auto. }
      destruct (elem_unique ok Hc' Hp) as (Hx & Ec & Ep). specialize (He _ Hx). rewrite element_shard, Ec, Ef' in He by exact Hx.
      rewrite (@block_foreign cps file FT small A c') in He by exact Hlt.
      change (rowmajor cps (map2 N.modulo c' cps)) with (slot_of sd c') in He.
      destruct (blob_of cps file (slot_of sd c')) as [|e0 e] eqn:EB; [reflexivity|].
      destruct (block_value He) as (x & D & _ & _ & R & _); [discriminate|]. rewrite D. exact R.
  - exists (repeat [] (N.to_nat (prod cps))).
    assert (L : lenN (repeat (@nil N) (N.to_nat (prod cps))) = prod cps) by (rewrite lenN_repeat; lia).
    assert (F : Forall (fun x : bytes => lenN x <= m) (repeat [] (N.to_nat (prod cps)))).
    { apply Forall_forall. intros x Hx. apply repeat_spec in Hx. subst x. rewrite lenN_nil. lia. }
    split; [split; [exact L|split; [exact F|]]|split; [exact L|split; [exact F|]]].
    + change (chunk_key (d_key d) (shard_of cps c)) with (shard_key sd c). rewrite Ef.
      apply forallb_forall. intros x Hx. apply repeat_spec in Hx. subst x. reflexivity.
    + intros c' Hc' Hsh. destruct (slot_ok sok Hm Hblob (valid_len Hc')) as [_ Hlt].
      destruct (@getN_in _ (repeat (@nil N) (N.to_nat (prod cps))) (slot_of sd c')) as [x Gx]; [lia|].
      exists x. split; [exact Gx|]. apply getN_ok, nth_error_In, repeat_spec in Gx.
      assert (Ef' : st (shard_key sd c') = None) by (unfold shard_key in *; congruence).
      unfold shard_contents. rewrite Ef'. exact Gx.
Qed.

Lemma reader_element m (G : shape -> Prop) st C x : (forall k, G k) -> holds_sh sd m reader_blob reader_shard G st C ->
  in_shape s x -> element_at A st x = Some (val d C x).
Proof using sok.
  intros HG HC Hx. destruct (elem_chunk ok Hx) as (Hv & _ & Hin & _). pose proof (elem_stored ok Hx) as Hs.
  rewrite element_shard by exact Hx. set (c := chunk_of b x) in *.
  destruct (HC c Hv (HG _)) as (blobs & (S1 & S2 & S3) & (R1 & R2 & R3)).
  destruct (R3 c Hv eq_refl) as (y & Gy & By). pose proof (valid_len Hv) as Lc.
  change (chunk_key (d_key d) (shard_of cps c)) with (shard_key sd c) in S3.
  unfold val, chunk_val. fold c. rewrite (stored_b sok c) in *.
  destruct (st (shard_key sd c)) as [file|].
  - destruct S3 as (FS & _). rewrite (FS c _ y Lc Gy). destruct (C c) as [data|]; cbn [blob_rel] in By.
    + destruct By as (B1 & B2 & _ & B4). destruct y as [|y0 y]; [now elim B1|]. unfold zarr_block, reader_blob in *.
      cbn [de_decode de_chunks de_width sharded_view]. rewrite B4. pose proof (lenN_concat (buffer_widths B2)) as L.
      rewrite (proj1 B2) in L. rewrite L, N.eqb_refl. f_equal. apply slice_concat; [apply (buffer_widths B2)|].
      rewrite (proj1 B2). now apply rowmajor_lt.
    + subst y. reflexivity.
  - pose proof (all_empty_at S3 Gy) as ->. destruct (C c) as [data|]; [|reflexivity]. now destruct By.
Qed.
End ForeignSharded.

Theorem foreign_sharded sd decode ops st f M : sharded_ok sd ->
  undoes (prod (d_chunks (sd_base sd)) * t_width (d_type (sd_base sd))) decode (d_codec (sd_base sd)) ->
  accepts decode (d_codec (sd_base sd)) ->
  can_write (d_mode (sd_base sd)) = true -> Forall (array_op_ok (sd_base sd)) ops ->
  (forall x, in_shape (d_shape (sd_base sd)) x -> element_at (sharded_view sd decode) st x = Some (f x)) ->
  prod (sd_cps sd) * M < W64 - 1 ->
  (forall c file, valid_chunk (d_shape (sd_base sd)) (d_chunks (sd_base sd)) c -> st (shard_key sd c) = Some file ->
     Forall is_byte file /\ intact_shard (sd_cps sd) file /\ lenN file <= M) ->
  exists st', run_sharded_ops sd ops st = (st', Ok tt) /\
    (forall x, in_shape (d_shape (sd_base sd)) x -> exists v, element_at (sharded_view sd decode) st' x = Some v /\
      same_value (sd_base sd) v (apply_ops (sd_base sd) ops f x) /\
      (t_float (d_type (sd_base sd)) = false -> v = apply_ops (sd_base sd) ops f x)) /\
    (forall ov off out, region_ok (sd_base sd) off (v_shape ov) -> out_view_ok ov (lenN out) ->
      exists out', sh_read_subarray sd st' ov off out = Ok out' /\ lenN out' = lenN out /\
        (forall i, in_shape (v_shape ov) i -> exists v,
           element_at (sharded_view sd decode) st' (vadd off i) = Some v /\
           getN out' (v_off ov + lin (v_strides ov) i) = Ok v) /\
        (forall a, (forall i, in_shape (v_shape ov) i -> a <> v_off ov + lin (v_strides ov) i) ->
           getN out' a = getN out a)).
Proof.
  intros sok dec acc Hm Hops He HM Hs. destruct (so_blob sok) as (m0 & M1 & M2). pose proof (so_base sok) as ok.
  set (m := N.max m0 M). assert (Mt : prod (sd_cps sd) * m < W64 - 1) by (unfold m; destruct (N.max_spec m0 M) as [[_ ->]|[_ ->]]; assumption).
  assert (Mb : forall data, buffer_of (t_width (d_type (sd_base sd))) (prod (d_chunks (sd_base sd))) data ->
    forall e, stored_as (d_codec (sd_base sd)) (concat data) e -> 0 < lenN e /\ lenN e <= m).
  { intros data B e E. destruct (M2 data B e E). unfold m. lia. }
  set (G := fun _ : shape => True). assert (HG : forall k, G k) by (intros; exact Logic.I).
  assert (HC : holds_sh sd m (reader_blob sd decode) (reader_shard sd decode) G st (shard_contents sd decode st)).
  { apply (@held_shards sd sok decode acc M m st Mt Mb); [unfold m; lia| |exact Hs]. intros x Hx. rewrite He by exact Hx. discriminate. }
  assert (HF : forall x, in_shape (d_shape (sd_base sd)) x -> val (sd_base sd) (shard_contents sd decode st) x = f x).
  { intros x Hx. pose proof (reader_element sok HG HC Hx) as E. rewrite He in E by exact Hx. congruence. }
  destruct (@run_sharded_ops_spec sd sok m Mt Mb (reader_blob sd decode) (reader_blob_ok sok dec) (reader_shard sd decode)
     (reader_shard_ok sok decode) G ops HG Hm Hops st _ f HC) as (st' & C' & E & HC' & HR & F).
  { intros x Hx. rewrite HF by exact Hx. now left. }
  exists st'. split; [exact E|]. split.
  - intros x Hx. exists (val (sd_base sd) C' x). split; [eapply reader_element; eauto|]. split; [now apply HR|]. intros Hf.
    destruct (@val_cell_sh sd sok m _ _ G st' C' _ (HG _) HC' Hx) as [V1 V2].
    destruct (@apply_ops_cells (sd_base sd) ok ops Hops f) with (x := x) as [A1 A2]; [|exact Hx|eapply same_value_int; eauto].
    intros y Hy. rewrite <- HF by exact Hy. now apply (@val_cell_sh sd sok m _ _ G st _ _ (HG _) HC).
  - intros ov off out Hreg Hov.
    destruct (@sh_read_subarray_spec sd sok m Mt Mb (reader_blob sd decode) (reader_blob_ok sok dec) (reader_shard sd decode)
      (reader_shard_ok sok decode) G ov off st' C' out Hreg (fun c _ => HG _) HC' Hov) as (out' & E2 & L & V & O).
    exists out'. split; [exact E2|]. split; [exact L|]. split; [|exact O]. intros i Hi.
    exists (val (sd_base sd) C' (vadd off i)). split; [|now apply V]. eapply reader_element; eauto.
    eapply region_in_shape; [apply Hreg|]. apply sub_in_box; [|exact Hi].
    destruct Hreg as [Hr _]. unfold valid_region in Hr; apply all3_length in Hr; lia.
Qed.
