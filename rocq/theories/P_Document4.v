(** Containers of other programs, from the document to the elements. *)
From Coq Require Import ZArith String Lia.
From Verif Require Import M_Base P_Base P_Blocking M_Text M_Double M_Json M_Mode M_Key M_View M_Blocking M_Metadata S_Metadata M_Format M_Bytes M_Shard M_Dataset M_Sharded M_Access M_Store M_N5Header
  M_Fs M_Attributes S_Attributes P_Attributes M_Container S_Container P_Container P_Container2 P_Container3 P_SameObject M_Tree S_Array S_Grid S_Bytes S_Text S_Format S_Shard S_Dataset S_Access S_Sharded S_S3 S_Tree
  P_Roi P_View P_Key P_Dataset P_Access P_Read P_History P_Sharded P_Store P_S3 P_S3Sim P_TreeSim P_Tree P_Tree2 P_Tree3 P_Tree4 P_PyGroup2 P_PyGroup11
  S_Layout S_Interop P_Layout P_Foreign S_Document S_Described P_Document P_Document2 P_Document3.
Import ListNotations.
Set Implicit Arguments.
Local Open Scope list_scope.
Local Open Scope N_scope.
Local Notation length := List.length.

(** Reading needs no permission to write. *)
Theorem foreign_shard_read sd decode st M : sharded_ok sd ->
  undoes (prod (d_chunks (sd_base sd)) * t_width (d_type (sd_base sd))) decode (d_codec (sd_base sd)) ->
  accepts decode (d_codec (sd_base sd)) ->
  (forall x, in_shape (d_shape (sd_base sd)) x -> element_at (sharded_view sd decode) st x <> None) ->
  prod (sd_cps sd) * M < W64 - 1 ->
  (forall c file, valid_chunk (d_shape (sd_base sd)) (d_chunks (sd_base sd)) c -> st (shard_key sd c) = Some file ->
     Forall is_byte file /\ intact_shard (sd_cps sd) file /\ lenN file <= M) ->
  forall ov off out, region_ok (sd_base sd) off (v_shape ov) -> out_view_ok ov (lenN out) ->
      exists out', sh_read_subarray sd st ov off out = Ok out' /\ lenN out' = lenN out /\
        (forall i, in_shape (v_shape ov) i -> exists v,
           element_at (sharded_view sd decode) st (vadd off i) = Some v /\
           getN out' (v_off ov + lin (v_strides ov) i) = Ok v) /\
        (forall a, (forall i, in_shape (v_shape ov) i -> a <> v_off ov + lin (v_strides ov) i) ->
           getN out' a = getN out a).
Proof.
  intros sok dec acc He HM Hs ov off out Hreg Hov. destruct (so_blob sok) as (m0 & M1 & M2). pose proof (so_base sok) as ok.
  set (m := N.max m0 M). assert (Mt : prod (sd_cps sd) * m < W64 - 1) by (unfold m; destruct (N.max_spec m0 M) as [[_ ->]|[_ ->]]; assumption).
  assert (Mb : forall data, buffer_of (t_width (d_type (sd_base sd))) (prod (d_chunks (sd_base sd))) data ->
    forall e, stored_as (d_codec (sd_base sd)) (List.concat data) e -> 0 < lenN e /\ lenN e <= m).
  { intros data B e E. destruct (M2 data B e E). unfold m. lia. }
  set (G := fun _ : shape => True). assert (HG : forall k, G k) by (intros; exact Logic.I).
  assert (HC : holds_sh sd m (reader_blob sd decode) (reader_shard sd decode) G st (shard_contents sd decode st)).
  { apply (@held_shards sd sok decode acc M m st Mt Mb); [unfold m; lia|exact He|exact Hs]. }
  destruct (@sh_read_subarray_spec sd sok m Mt Mb (reader_blob sd decode) (reader_blob_ok sok dec) (reader_shard sd decode)
      (reader_shard_ok sok decode) G ov off st _ out Hreg (fun c _ => HG _) HC Hov) as (out' & E2 & L & V & O).
  exists out'. split; [exact E2|]. split; [exact L|]. split; [|exact O]. intros i Hi.
  exists (val (sd_base sd) (shard_contents sd decode st) (vadd off i)). split; [|now apply V]. eapply reader_element; eauto.
  eapply region_in_shape; [apply Hreg|]. apply sub_in_box; [|exact Hi].
  destruct Hreg as [Hr _]. unfold valid_region in Hr; apply all3_length in Hr; lia.
Qed.

Lemma base_object o d : dataset_ok d -> d_shape d = op_shape o -> d_chunks d = op_chunks o -> k_delim (d_key d) = k_delim (op_keys o) ->
  (op_shard o <> [] -> k_zarr (op_keys o) = true) -> object_ok o.
Proof.
  intros Ok E1 E2 E3 Sh. destruct Ok as [[Nn Al] _ _ _ _ Sp Pa _]. rewrite E1 in *. rewrite E2 in *. rewrite E3 in *. constructor; auto.
  apply all2_length in Al. lia.
Qed.
Lemma plain_object M o : dataset_ok (array_of M o) -> op_shard o = [] -> object_ok o.
Proof. intros Ok Sh. apply (@base_object o (array_of M o)); auto; congruence. Qed.

Section Reads.
Variables (M : meaning) (D : stream -> bytes -> N -> option bytes) (V : element -> fill -> list N) (a : document) (o : opened) (t : fsys).
Hypothesis Fa : fits a o.
Hypothesis Nf : do_fill a <> NoFill.
Hypothesis Ag : agree D V M o.
Hypothesis Ac : accepts (D (do_stream a)) (m_codec M (op_codec o)).
Hypothesis Pl : dataset_place o t.
Notation st := (files_at (op_path o) t).

Lemma tree_read ov off out : object_ok o ->
  snd (tree_call M o (KReadArray ov off out) t) = snd (alone_call M o (KReadArray ov off out) st).
Proof using Pl.
  intros ok. pose proof (@tree_call_alone M o (KReadArray ov off out) t st ok I Pl (fun _ _ => eq_refl)) as H.
  destruct (alone_call M o _ st), (tree_call M o _ t). apply H.
Qed.

Theorem foreign_array ov off out : op_shard o = [] -> dataset_ok (array_of M o) ->
  region_ok (array_of M o) off (v_shape ov) -> out_view_ok ov (lenN out) ->
  (forall i, in_shape (v_shape ov) i -> element_at (seen D V a) st (vadd off i) <> None) ->
  (do_layout a = N5 -> forall c file, overlaps (do_shape a) (do_chunks a) off (v_shape ov) c -> st (n5_name c) = Some file ->
     n5_dims file = rev (chunk_extent (do_shape a) (do_chunks a) c) \/ n5_dims file = rev (do_chunks a)) ->
  exists out', snd (tree_call M o (KReadArray ov off out) t) = Ok (ACells false out') /\ lenN out' = lenN out /\
    (forall i, in_shape (v_shape ov) i -> exists v, element_at (seen D V a) st (vadd off i) = Some v /\
       getN out' (v_off ov + lin (v_strides ov) i) = Ok v) /\
    (forall k, (forall i, in_shape (v_shape ov) i -> k <> v_off ov + lin (v_strides ov) i) -> getN out' k = getN out k).
Proof using Fa Nf Ag Ac Pl.
  intros Sh Ok R Ov El N5b.
  assert (E : seen D V a = view_of (array_of M o) (D (stream_of (op_codec o)))).
  { unfold seen, view_of. pose proof (fi_layout Fa) as L. rewrite Sh in L. rewrite L, <- (fi_shape Fa), <- (fi_chunks Fa), <- (fi_stream Fa).
    rewrite (ag_width Ag (fi_elem Fa)), (ag_fill Ag (fi_elem Fa) Nf (fi_fill Fa)). reflexivity. }
  rewrite E in El |- *. rewrite <- (fi_stream Fa) in Ac.
  destruct (@foreign_read (array_of M o) Ok _ Ac st ov off out R Ov El) as (out' & Ho & Rest).
  { intros Zf c file. change (d_shape (array_of M o)) with (op_shape o). change (d_chunks (array_of M o)) with (op_chunks o).
    rewrite (fi_shape Fa), (fi_chunks Fa). apply N5b. rewrite (fi_layout Fa), Sh. unfold layout_of. unfold d_zarr in Zf. cbn in Zf. now rewrite Zf. }
  assert (ok : object_ok o).
  { apply (plain_object Ok Sh). }
  exists out'. split; [|exact Rest]. rewrite tree_read by exact ok. unfold alone_call. rewrite Sh. cbn [fs_call snd]. now rewrite Ho.
Qed.

Theorem foreign_shards sd L ov off out : op_shard o <> [] -> k_zarr (op_keys o) = true -> open_sharded (array_of M o) (op_shard o) = Ok sd -> sharded_ok sd ->
  (forall x, in_shape (do_shape a) x -> element_at (seen D V a) st x <> None) ->
  prod (sd_cps sd) * L < W64 - 1 ->
  (forall c file, valid_chunk (do_shape a) (do_chunks a) c -> st (shard_key sd c) = Some file ->
     Forall is_byte file /\ intact_shard (sd_cps sd) file /\ lenN file <= L) ->
  region_ok (sd_base sd) off (v_shape ov) -> out_view_ok ov (lenN out) ->
  exists out', snd (tree_call M o (KReadArray ov off out) t) = Ok (ACells false out') /\ lenN out' = lenN out /\
    (forall i, in_shape (v_shape ov) i -> exists v, element_at (seen D V a) st (vadd off i) = Some v /\
       getN out' (v_off ov + lin (v_strides ov) i) = Ok v) /\
    (forall k, (forall i, in_shape (v_shape ov) i -> k <> v_off ov + lin (v_strides ov) i) -> getN out' k = getN out k).
Proof using Fa Nf Ag Ac Pl.
  intros Sh Zr Op Oks El HL Hs R Ov.
  assert (Eb : sd_base sd = Dataset (op_shape o) (op_chunks o) (KeyConfig true (k_delim (op_keys o)) (k_format (op_keys o)) (k_encoding (op_keys o)))
        (m_elem M (op_dtype o)) (m_fill M (op_dtype o) (op_fill o)) (m_codec M (op_codec o)) (op_mode o)).
  { unfold open_sharded in Op. destruct (chunks_per_shard _ _) as [cps| |]; try discriminate. injection Op as <-. reflexivity. }
  assert (Es : sd_shard sd = op_shard o).
  { unfold open_sharded in Op. destruct (chunks_per_shard _ _) as [cps| |]; try discriminate. injection Op as <-. reflexivity. }
  assert (exists b r, op_shard o = b :: r) as (b & r & Eo) by (destruct (op_shard o); [congruence|eauto]).
  assert (E : seen D V a = sharded_view sd (D (stream_of (op_codec o)))).
  { unfold seen, sharded_view. pose proof (fi_layout Fa) as L0. rewrite Eo in L0. rewrite L0, <- (fi_shape Fa), <- (fi_chunks Fa), <- (fi_stream Fa).
    rewrite (ag_width Ag (fi_elem Fa)), (ag_fill Ag (fi_elem Fa) Nf (fi_fill Fa)), Es, Eo, Eb. reflexivity. }
  rewrite E in El |- *. rewrite <- (fi_stream Fa) in Ac. rewrite <- (fi_shape Fa), <- ?(fi_chunks Fa) in *.
  destruct (@foreign_shard_read sd (D (stream_of (op_codec o))) st L Oks) with (ov := ov) (off := off) (out := out) as (out' & Ho & Rest); auto.
  { rewrite Eb. exact (ag_stream Ag). }
  { rewrite Eb. exact Ac. }
  { rewrite Eb. exact El. }
  { rewrite Eb. exact Hs. }
  assert (ok : object_ok o).
  { apply (@base_object o (sd_base sd)); auto; try (now rewrite Eb). apply (so_base Oks). }
  exists out'. split; [|exact Rest]. rewrite tree_read by exact ok. unfold alone_call. rewrite Eo in Op |- *. rewrite Op. cbn. now rewrite Ho.
Qed.
End Reads.
