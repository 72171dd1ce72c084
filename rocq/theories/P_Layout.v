(** The files that are written have the published layout. *)
From Coq Require Import String.
From Verif Require Import M_Base M_Text M_Key M_Blocking M_View M_Bytes M_N5Header M_Format M_Mode M_Shard M_Dataset M_Sharded M_Access M_Crc
  S_Array S_Grid S_Bytes S_Text S_Format S_Crc S_Shard S_Dataset S_Access S_Sharded S_Layout S_Interop
  P_Base P_Blocking P_Roi P_View P_Bytes P_Key P_Format P_Crc P_Shard P_Dataset P_Access P_History P_Sharded.
Import List ListNotations.
Local Open Scope list_scope.
Local Open Scope N_scope.
Local Notation length := List.length.

(** ** Arithmetic of the reader *)
Lemma slice_at a m r off n : off = lenN a -> n = lenN m -> slice (a ++ m ++ r) off n = m.
Proof. intros -> ->. unfold slice. rewrite skipn_app_exact by reflexivity. now rewrite firstn_app_exact. Qed.
Lemma slice_at0 m r n : n = lenN m -> slice (m ++ r) 0 n = m.
Proof. intros ->. unfold slice. change (skipn (N.to_nat 0) (m ++ r)) with (m ++ r). now rewrite firstn_app_exact. Qed.

Lemma slice_concat w d i : widths w d -> i < lenN d -> slice (concat d) (i * w) w = cell_at d i.
Proof.
  intros H Hi. unfold slice, cell_at. rewrite N2Nat.inj_mul. rewrite (skipn_concat _ H).
  unfold lenN in Hi. revert Hi. generalize (N.to_nat i) as n, (N2Nat.id i). intros n En Hi.
  assert (Hn : (n < length d)%nat) by lia. clear En Hi. revert n Hn.
  induction H as [|e d He H IH]; intros n Hn; [cbn in Hn; lia|].
  destruct n as [|n]; cbn [skipn concat nth].
  - now rewrite firstn_app_exact.
  - apply IH. cbn in Hn. lia.
Qed.

Lemma prod_app a b : prod (a ++ b) = prod a * prod b.
Proof. induction a as [|x a IH]; cbn [app prod]; [lia|]. rewrite IH. lia. Qed.
Lemma prod_rev a : prod (rev a) = prod a.
Proof. induction a as [|x a IH]; cbn [rev prod]; [reflexivity|]. rewrite prod_app, IH. cbn [prod]. lia. Qed.

Lemma colmajor_app s : forall c s' c', length c = length s ->
  colmajor (s ++ s') (c ++ c') = colmajor s c + prod s * colmajor s' c'.
Proof.
  induction s as [|n s IH]; intros [|x c] s' c' L; cbn in L; try discriminate; cbn [app colmajor prod]; [lia|].
  rewrite IH by lia. lia.
Qed.
Lemma colmajor_rev s : forall c, length c = length s -> colmajor (rev s) (rev c) = rowmajor s c.
Proof.
  induction s as [|n s IH]; intros [|x c] L; cbn in L; try discriminate; [reflexivity|].
  cbn [rev rowmajor]. rewrite colmajor_app by (rewrite !rev_length; lia). rewrite IH by lia. rewrite prod_rev.
  cbn [colmajor]. lia.
Qed.

Lemma inside_spec s c : inside s c = true <-> in_shape s c.
Proof.
  unfold in_shape. revert c. induction s as [|n s IH]; intros [|x c]; cbn [inside]; split; intros H;
    try discriminate; try (now inversion H); auto.
  - apply andb_true_iff in H as [H1 H2]. constructor; [lia|]. now apply IH.
  - inversion H; subst. apply andb_true_iff. split; [lia|]. now apply IH.
Qed.
Lemma in_shape_rev s c : in_shape s c -> in_shape (rev s) (rev c).
Proof.
  unfold in_shape. induction 1 as [|x n c s Hx H IH]; cbn [rev]; [constructor|].
  apply Forall2_app; [exact IH|]. now repeat constructor.
Qed.

(** ** Names *)
Lemma name_zarr k c : k_zarr k = true -> c <> [] ->
  chunk_key k c = zarr_name ((k_format k =? 3) && String.eqb (k_encoding k) "default") (k_delim k) c.
Proof.
  intros Hz Hc. rewrite key_format, Hz. unfold zarr_name. destruct (_ && _); cbn [app]; [reflexivity|].
  destruct c; [now elim Hc|reflexivity].
Qed.
Lemma name_n5 k c : k_zarr k = false -> chunk_key k c = n5_name c.
Proof. intros Hz. rewrite key_format, Hz. reflexivity. Qed.

(** ** The header of N5 *)
Lemma n5_header_parts sh payload : header_ok sh 0 ->
  let file := write_n5_header sh false 0 ++ payload in
  value_be (slice file 0 2) = 0 /\ value_be (slice file 2 2) = lenN sh /\
  map (fun i => value_be (slice file (4 + 4 * N.of_nat i) 4)) (seq 0 (N.to_nat (lenN sh))) = rev sh /\
  lenN file = 4 + 4 * lenN sh + lenN payload /\
  skipn (N.to_nat (4 + 4 * lenN sh)) file = payload.
Proof.
  intros (Hd & Hsh & _) file.
  assert (Lh : lenN (write_n5_header sh false 0) = 4 + 4 * lenN sh) by (rewrite lenN_write_header; lia).
  assert (E : file = rev (le_bytes 2 0) ++ rev (le_bytes 2 (lenN sh)) ++
    concat (map (fun n => rev (le_bytes 4 n)) (rev sh)) ++ payload).
  { unfold file, write_n5_header. rewrite !reverse_elem_rev, reverse_endian_spec, map_map, app_nil_r, map_rev, <- !app_assoc.
    reflexivity. }
  split; [|split; [|split; [|split]]].
  - rewrite E, slice_at0 by reflexivity. reflexivity.
  - rewrite E, slice_at by reflexivity. rewrite value_be_rev, <- of_le_value. apply of_le_le_small. exact Hd.
  - assert (F : forall l a r, lenN a = 4 -> forall k pre, lenN pre = 4 * N.of_nat k -> Forall (fun n => n < 2 ^ 32) l ->
      map (fun i => value_be (slice (a ++ pre ++ concat (map (fun n => rev (le_bytes 4 n)) l) ++ r) (4 + 4 * N.of_nat i) 4))
        (seq k (length l)) = l).
    { clear. induction l as [|n l IH]; intros a r La k pre Lp Hl; [reflexivity|]. inversion Hl; subst.
      cbn [length seq map concat].
      assert (L4 : lenN (rev (le_bytes 4 n)) = 4) by (rewrite lenN_rev, lenN_le_bytes; reflexivity).
      f_equal.
      - replace (a ++ pre ++ (rev (le_bytes 4 n) ++ concat (map (fun n0 => rev (le_bytes 4 n0)) l)) ++ r)
          with ((a ++ pre) ++ rev (le_bytes 4 n) ++ concat (map (fun n0 => rev (le_bytes 4 n0)) l) ++ r)
          by now rewrite <- !app_assoc.
        rewrite slice_at by (rewrite ?lenN_app, ?L4; lia).
        rewrite value_be_rev, <- of_le_value. now apply of_le_le_small.
      - specialize (IH a r La (S k) (pre ++ rev (le_bytes 4 n))).
        etransitivity; [|apply IH; [rewrite lenN_app, L4, Lp; lia|assumption]].
        apply map_ext. intros i. now rewrite <- !app_assoc. }
    specialize (F (rev sh) (rev (le_bytes 2 0) ++ rev (le_bytes 2 (lenN sh))) payload eq_refl 0%nat [] eq_refl).
    cbn [app] in F. rewrite rev_length in F. replace (N.to_nat (lenN sh)) with (length sh) by (unfold lenN; lia).
    rewrite E. etransitivity; [|apply F; now apply Forall_rev]. apply map_ext. intros i. now rewrite <- app_assoc.
  - unfold file. rewrite lenN_app, Lh. lia.
  - unfold file. now rewrite skipn_app_exact.
Qed.

Lemma header_ignores sh v v' : write_n5_header sh false v = write_n5_header sh false v'.
Proof. reflexivity. Qed.

(** ** One chunk *)
Section WithDataset.
Variable d : dataset.
Hypothesis ok : dataset_ok d.
Variable decode : bytes -> N -> option bytes.
Hypothesis dec : undoes (prod (d_chunks d) * t_width (d_type d)) decode (d_codec d).
Notation w := (t_width (d_type d)).
Notation A := (view_of d decode).

Lemma zarr_block_ok data e p : buffer_of w (prod (d_chunks d)) data -> stored_as (d_codec d) (concat data) e ->
  in_shape (d_chunks d) p -> forall L, zarr_block (Described L (d_shape d) (d_chunks d) w (d_fill d) decode) e p =
    Some (cell_at data (rowmajor (d_chunks d) p)).
Proof using ok dec.
  intros Hd He Hp L. unfold zarr_block. cbn [de_chunks de_width de_decode].
  pose proof (lenN_concat (buffer_widths Hd)) as LC. rewrite (proj1 Hd) in LC.
  assert (P : 0 < prod (d_chunks d)) by apply (prod_chunks_pos ok). pose proof (do_width ok) as W.
  rewrite <- LC. rewrite (dec (concat_bytes Hd)); auto; [|rewrite LC; nia|lia].
  rewrite N.eqb_refl. f_equal. apply slice_concat; [apply (buffer_widths Hd)|].
  rewrite (proj1 Hd). now apply rowmajor_lt.
Qed.

Lemma encoded_parts c data file : valid_chunk (d_shape d) (d_chunks d) c ->
  buffer_of w (prod (stored_shape d c)) data ->
  data_to_buffer (d_zarr d) (d_type d) (d_codec d) (d_fill d) (d_chunks d)
    (chunk_extent (d_shape d) (d_chunks d) c) data false 0 = Ok (Some file) ->
  if d_zarr d then stored_as (d_codec d) (concat data) file
  else exists e, file = write_n5_header (stored_shape d c) false 0 ++ e /\
         stored_as (d_codec d) (concat (map (@rev N) data)) e.
Proof using ok.
  intros Hc Hd E. unfold data_to_buffer in E. cbn [andb negb] in E.
  assert (Hs : (if d_zarr d then prodw (d_chunks d) else prodw (chunk_extent (d_shape d) (d_chunks d) c)) =
    prod (stored_shape d c)).
  { unfold stored_shape. destruct (d_zarr d); apply prodw_small; [apply (prod_chunks_small ok)|].
    destruct (extent_props ok Hc) as (_ & X & _). pose proof (prod_chunks_small ok). lia. }
  rewrite Hs in E. pose proof (proj1 Hd) as L. rewrite L, N.ltb_irrefl in E.
  match type of E with (if ?q then _ else _) = _ => destruct q; [discriminate|] end.
  unfold compress, data_to_n5_format in E. unfold stored_as.
  destruct (d_zarr d) eqn:Z.
  - unfold compress in E. rewrite L, N.ltb_irrefl, (firstn_exact L) in E.
    destruct (cd_raw (d_codec d)); [cbn in E; congruence|]. destruct (cd_enc _ _); cbn in E; congruence.
  - assert (X : forall dd, (if 1 <? w then dd = reverse_endian data else dd = data) -> map (@rev N) data = dd).
    { intros dd Hdd. destruct (N.ltb_spec 1 w); [now rewrite Hdd, reverse_endian_spec|]. subst dd.
      pose proof (do_width ok). assert (W1 : w = 1) by lia. destruct Hd as [_ F]. clear -F W1.
      induction F as [|e l [He _] F IH]; [reflexivity|]. cbn [map]. rewrite IH. f_equal.
      rewrite W1 in He. destruct e as [|a [|]]; cbn in He; try lia; try reflexivity.
      unfold lenN in He. cbn in He. lia. }
    unfold data_to_n5_format, compress in E. unfold stored_shape. rewrite Z.
    assert (S0 : stored_shape d c = chunk_extent (d_shape d) (d_chunks d) c) by (unfold stored_shape; now rewrite Z).
    destruct (1 <? w) eqn:W.
    + rewrite L, N.ltb_irrefl, (firstn_exact L), lenN_rev_endian, L, N.ltb_irrefl in E.
      rewrite firstn_exact in E by (rewrite lenN_rev_endian; exact L).
      destruct (cd_raw (d_codec d)).
      * cbn in E. injection E as <-. eexists. split; [reflexivity|]. now rewrite (X _ eq_refl).
      * rewrite <- (X _ eq_refl) in E. destruct (cd_enc _ _) eqn:Ec; cbn in E; try discriminate. injection E as <-.
        eexists. split; reflexivity.
    + rewrite L, N.ltb_irrefl, (firstn_exact L) in E. rewrite (X data eq_refl).
      destruct (cd_raw (d_codec d)).
      * cbn in E. injection E as <-. eexists. split; reflexivity.
      * destruct (cd_enc _ _) eqn:Ec; cbn in E; try discriminate. injection E as <-.
        eexists. split; reflexivity.
Qed.

Lemma n5_block_ok c data e p : d_zarr d = false -> valid_chunk (d_shape d) (d_chunks d) c ->
  buffer_of w (prod (stored_shape d c)) data -> stored_as (d_codec d) (concat (map (@rev N) data)) e ->
  in_shape (stored_shape d c) p ->
  n5_block A (write_n5_header (stored_shape d c) false 0 ++ e) p = Some (cell_at data (rowmajor (stored_shape d c) p)).
Proof using ok dec.
  intros Z Hc Hd He Hp. set (sh := stored_shape d c) in *.
  assert (Hh : header_ok sh 0).
  { unfold sh, stored_shape. rewrite Z. apply (header_shape ok Z Hc). reflexivity. }
  destruct (@n5_header_parts sh e Hh) as (P1 & P2 & P3 & P4 & P5). unfold n5_block, n5_dims.
  rewrite P1, P2, P3, P4, P5. cbn [de_decode de_width view_of].
  assert (Lp : length p = length sh) by (unfold in_shape in Hp; now apply Forall2_len in Hp).
  rewrite (proj2 (inside_spec (rev sh) (rev p)) (in_shape_rev Hp)).
  replace (4 + 4 * lenN sh <=? 4 + 4 * lenN sh + lenN e) with true by (symmetry; apply N.leb_le; lia).
  change (0 =? 0) with true. cbn [andb]. rewrite prod_rev.
  assert (Hr : buffer_of w (prod sh) (map (@rev N) data)).
  { destruct Hd as [L F]. split; [unfold lenN; rewrite map_length; exact L|]. apply Forall_map.
    eapply Forall_impl; [|exact F]. cbn. intros a [H1 H2]. split; [now rewrite lenN_rev|now apply Forall_rev]. }
  pose proof (lenN_concat (buffer_widths Hr)) as LC. rewrite (proj1 Hr) in LC.
  destruct (stored_props ok Hc) as (S1 & S2 & S3 & S4 & S5). fold sh in S1, S2, S3, S4, S5.
  rewrite <- LC. pose proof (do_width ok) as W.
  rewrite (dec (concat_bytes Hr)); auto; [|rewrite LC; nia|rewrite LC; nia].
  rewrite N.eqb_refl. f_equal. rewrite colmajor_rev by exact Lp.
  assert (Hi : rowmajor sh p < lenN (map (@rev N) data)) by (rewrite (proj1 Hr); now apply rowmajor_lt).
  rewrite slice_concat by (auto; apply (buffer_widths Hr)).
  unfold cell_at. change (@nil N) with (rev (@nil N)) at 1. rewrite map_nth. apply rev_involutive.
Qed.

(** ** Plain datasets *)
Lemma chunks_nonnil x : in_shape (d_shape d) x -> chunk_of (d_chunks d) x <> [].
Proof using ok.
  intros Hx E. destruct (elem_chunk ok Hx) as (Hv & _). rewrite E in Hv. unfold valid_chunk in Hv.
  destruct (do_dims ok) as [H _]. apply all3_length in Hv. destruct (d_shape d); [now elim H|]. cbn in Hv. lia.
Qed.

Lemma plain_element st C x : holds d st C -> in_shape (d_shape d) x -> element_at A st x = Some (val d C x).
Proof using ok dec.
  intros HC Hx. destruct (elem_chunk ok Hx) as (Hv & _ & Hin & _). pose proof (elem_stored ok Hx) as Hs.
  pose proof (chunks_nonnil Hx) as Hn. specialize (HC _ Hv).
  set (c := chunk_of (d_chunks d) x) in *. set (p := pos_of (d_chunks d) x) in *.
  assert (R : forall f : bytes -> option (list N),
    (forall data file, C c = Some data -> buffer_of w (prod (stored_shape d c)) data ->
      data_to_buffer (d_zarr d) (d_type d) (d_codec d) (d_fill d) (d_chunks d)
        (chunk_extent (d_shape d) (d_chunks d) c) data false 0 = Ok (Some file) ->
      f file = Some (cell_at data (rowmajor (stored_shape d c) p))) ->
    match st (chunk_key (d_key d) c) with None => Some (d_fill d) | Some file => f file end = Some (val d C x)).
  { intros f Hf. unfold val, chunk_val. fold c p. destruct (C c) as [data|]; cbn [option_map chunk_holds] in HC.
    - destruct HC as (file & E1 & E2 & E3 & E4 & _). rewrite E1. apply (Hf data file); auto.
      rewrite <- (E4 eq_refl). exact E3.
    - rewrite HC. reflexivity. }
  unfold element_at. cbn [de_layout de_chunks view_of]. fold (chunk_of (d_chunks d) x) (pos_of (d_chunks d) x). fold c p.
  unfold layout_of. fold (d_zarr d). destruct (d_zarr d) eqn:Z; unfold d_zarr in Z.
  - pose proof (@name_zarr (d_key d) c Z Hn) as K.
    assert (Sb : stored_shape d c = d_chunks d) by (unfold stored_shape, d_zarr; now rewrite Z).
    destruct (k_format (d_key d) =? 3); cbn [andb] in K; rewrite <- K; apply R; intros data file EC Hb E;
      pose proof (@encoded_parts c data file Hv Hb) as P; unfold d_zarr in P; rewrite Z in P; specialize (P E);
      rewrite Sb in *; now apply zarr_block_ok.
  - rewrite <- (@name_n5 (d_key d) c Z). apply R. intros data file EC Hb E.
    pose proof (@encoded_parts c data file Hv Hb) as P. unfold d_zarr in P. rewrite Z in P. specialize (P E).
    destruct P as (e & -> & He). apply n5_block_ok; auto.
Qed.
End WithDataset.

Theorem plain_layout d decode ops st : dataset_ok d ->
  undoes (prod (d_chunks d) * t_width (d_type d)) decode (d_codec d) -> can_write (d_mode d) = true ->
  Forall (array_op_ok d) ops ->
  (forall c, valid_chunk (d_shape d) (d_chunks d) c -> st (chunk_key (d_key d) c) = None) ->
  exists st', run_array_ops d ops st = (st', Ok tt) /\
    forall x, in_shape (d_shape d) x -> exists v, element_at (view_of d decode) st' x = Some v /\
      same_value d v (apply_ops d ops (fun _ => d_fill d) x) /\
      (t_float (d_type d) = false -> v = apply_ops d ops (fun _ => d_fill d) x).
Proof.
  intros ok dec Hm Hops Hst.
  destruct (run_array_ops_spec ok Hm Hops (holds_empty Hst) (@represents_empty d)) as (st' & C' & E & HC & HR & F).
  exists st'. split; [exact E|]. intros x Hx. exists (val d C' x).
  split; [now apply plain_element|]. split; [now apply HR|]. intros Hf.
  destruct (val_cell ok HC Hx) as [V1 V2].
  destruct (@apply_ops_cells d ok ops Hops (fun _ => d_fill d) (fun _ _ => do_fill ok) _ Hx) as [A1 A2].
  eapply same_value_int; eauto.
Qed.

(** ** Shards *)
Lemma entry_at blobs : forall size i x, getN blobs i = Ok x ->
  exists e, getN (shard_entries size blobs) i = Ok e /\
    match x with
    | [] => e = Entry SHARD_EMPTY SHARD_EMPTY
    | _ => e_nbytes e = lenN x /\ exists pre tail, concat blobs = pre ++ x ++ tail /\ e_offset e = size + lenN pre
    end.
Proof.
  assert (GS : forall A (l : list A) n a, getN (a :: l) (N.of_nat (S n)) = getN l (N.of_nat n)).
  { intros. unfold getN. rewrite !Nat2N.id. cbn [nth_error]. rewrite lenN_cons.
    destruct (N.ltb_spec (N.of_nat (S n)) (lenN l + 1)), (N.ltb_spec (N.of_nat n) (lenN l)); try lia; reflexivity. }
  induction blobs as [|b r IH]; intros size i x H; [apply getN_ok in H; now destruct (N.to_nat i)|].
  rewrite <- (N2Nat.id i) in *. destruct (N.to_nat i) as [|n].
  - unfold getN in H. cbn in H. injection H as ->. destruct x as [|x0 x]; cbn [shard_entries].
    + eexists. split; reflexivity.
    + eexists. split; [reflexivity|]. cbn [e_nbytes e_offset]. split; [reflexivity|].
      exists [], (concat r). rewrite lenN_nil, N.add_0_r. split; reflexivity.
  - rewrite GS in H. destruct b as [|b0 b]; cbn [shard_entries].
    + destruct (IH size _ _ H) as (e & E1 & E2). exists e. rewrite GS. split; [exact E1|]. exact E2.
    + destruct (IH (size + lenN (b0 :: b)) _ _ H) as (e & E1 & E2). exists e. rewrite GS. split; [exact E1|].
      destruct x as [|x0 x]; [exact E2|]. destruct E2 as (H1 & pre & tail & H2 & H3). split; [exact H1|].
      exists ((b0 :: b) ++ pre), tail. cbn [concat]. rewrite H2, <- !app_assoc. split; [reflexivity|].
      rewrite lenN_app. lia.
Qed.

Lemma index_slice es : forall k e, getN es k = Ok e ->
  slice (index_bytes es) (16 * k) 8 = write_le64 (e_offset e) /\
  slice (index_bytes es) (16 * k + 8) 8 = write_le64 (e_nbytes e).
Proof.
  intros k e H. apply getN_ok in H. apply nth_error_split in H as (l1 & l2 & -> & L).
  assert (E : index_bytes (l1 ++ e :: l2) = index_bytes l1 ++ write_le64 (e_offset e) ++ write_le64 (e_nbytes e) ++ index_bytes l2).
  { unfold index_bytes. rewrite flat_map_app. cbn [flat_map]. now rewrite <- app_assoc. }
  assert (L1 : lenN (index_bytes l1) = 16 * k) by (rewrite index_bytes_length; unfold lenN; lia).
  assert (W8 : forall v, lenN (write_le64 v) = 8) by (intros; rewrite write_le64_spec, lenN_le_bytes; reflexivity).
  rewrite E. split.
  - apply slice_at; [now rewrite L1|now rewrite W8].
  - rewrite app_assoc. apply slice_at; [rewrite lenN_app, L1, W8; reflexivity|now rewrite W8].
Qed.
Lemma le64_value v : v < 2 ^ 64 -> value_le (write_le64 v) = v.
Proof. intros H. rewrite write_le64_spec, <- of_le_value. now apply of_le_le_small. Qed.

Section WithSharded.
Variable sd : sharded.
Hypothesis sok : sharded_ok sd.
Notation d := (sd_base sd).
Notation w := (t_width (d_type (sd_base sd))).
Variable decode : bytes -> N -> option bytes.
Hypothesis dec : undoes (prod (d_chunks (sd_base sd)) * t_width (d_type (sd_base sd))) decode (d_codec (sd_base sd)).
Let ok : dataset_ok d := so_base sok.

Lemma per_ok : map2 N.div (sd_shard sd) (d_chunks d) = sd_cps sd.
Proof using sok.
  pose proof (so_cps sok) as H. pose proof (proj2 (do_dims ok)) as D. revert H D.
  generalize (sd_shard sd), (sd_cps sd), (d_chunks d), (d_shape d). intros a. induction a as [|n a IH];
    intros [|c cs] [|b bs] s H D; cbn in H; try tauto; try reflexivity.
  destruct s as [|s0 s]; cbn in D; [tauto|]. destruct H as [[H1 H2] H3], D as [[D1 _] D3]. cbn [map2].
  f_equal; [|eapply IH; eauto]. rewrite H2. apply N.div_mul. lia.
Qed.

Lemma shard_element blobs c x p : lenN blobs = prod (sd_cps sd) -> lenN (concat blobs) < W64 - 1 ->
  length c = length (d_chunks d) -> getN blobs (rowmajor (sd_cps sd) (pos_in_shard (sd_cps sd) c)) = Ok x ->
  shard_block (sharded_view sd decode) (sd_cps sd) (build_shard blobs) c p =
    match x with [] => Some (d_fill d) | _ => zarr_block (sharded_view sd decode) x p end.
Proof using sok.
  intros Lb Lc Hl Hx. set (k := rowmajor (sd_cps sd) (pos_in_shard (sd_cps sd) c)) in *.
  unfold shard_block, build_shard. set (es := shard_entries 0 blobs). set (idx := index_bytes es).
  assert (Lidx : lenN idx = 16 * prod (sd_cps sd)).
  { unfold idx. rewrite index_bytes_length. f_equal. unfold es, lenN. rewrite shard_entries_length. exact Lb. }
  assert (L4 : lenN (write_le32 (crc32c idx 0)) = 4) by (rewrite write_le32_spec, lenN_le_bytes; reflexivity).
  set (file := concat blobs ++ idx ++ write_le32 (crc32c idx 0)).
  assert (Lf : lenN file = lenN (concat blobs) + (16 * prod (sd_cps sd) + 4)) by (unfold file; rewrite !lenN_app; lia).
  destruct (N.leb_spec (16 * prod (sd_cps sd) + 4) (lenN file)) as [_|]; [|lia].
  assert (S1 : slice file (lenN file - (16 * prod (sd_cps sd) + 4)) (16 * prod (sd_cps sd)) = idx).
  { unfold file at 1. apply slice_at; lia. }
  assert (S2 : slice file (lenN file - 4) 4 = write_le32 (crc32c idx 0)).
  { unfold file at 1. rewrite app_assoc. rewrite <- (app_nil_r (write_le32 _)) at 1. apply slice_at; [rewrite lenN_app; lia|lia]. }
  rewrite S1, S2. change (crc32c_spec idx) with (crc32c_spec (index_bytes es)).
  rewrite <- (crc32c_is_castagnoli (index_bytes_all es)). fold idx.
  assert (V : value_le (write_le32 (crc32c idx 0)) = crc32c idx 0).
  { rewrite write_le32_spec, <- of_le_value. apply of_le_le_small. pose proof (crc_index_word es) as CW. fold idx in CW. unfold word in CW.
    replace (256 ^ N.of_nat 4) with (2 ^ 32) by reflexivity. exact CW. }
  rewrite V, N.eqb_refl. fold (pos_in_shard (sd_cps sd) c). fold k.
  destruct (@entry_at blobs 0 k x Hx) as (e & Ee & He). destruct (@index_slice es k e Ee) as [I1 I2]. fold idx in I1, I2.
  rewrite I1, I2.
  assert (B : e_offset e < 2 ^ 64 /\ e_nbytes e < 2 ^ 64).
  { destruct (getN_ok (shard_entries 0 blobs) k e) as [G _]. specialize (G Ee). apply nth_error_In in G.
    pose proof (@shard_entries_ok blobs 0) as F. rewrite Forall_forall in F. destruct (F Lc _ G) as (F1 & F2 & _).
    split; [exact F1|exact F2]. }
  rewrite !le64_value by apply B. destruct x as [|x0 x].
  - subst e. cbn [e_offset e_nbytes]. reflexivity.
  - destruct He as (N1 & pre & tail & N2 & N3). rewrite N.add_0_l in N3.
    assert (Lp : lenN (concat blobs) = lenN pre + (lenN (x0 :: x) + lenN tail)) by (rewrite N2, !lenN_app; reflexivity).
    rewrite N1, N3. change W64 with (2 ^ 64) in Lc.
    destruct (N.eqb_spec (lenN pre) (2 ^ 64 - 1)); [lia|]. cbn [andb].
    destruct (N.leb_spec (lenN pre + lenN (x0 :: x)) (lenN file)); [|lia].
    f_equal. unfold file. rewrite N2, <- !app_assoc. now apply slice_at.
Qed.

Lemma sharded_element m (G : shape -> Prop) st C x : prod (sd_cps sd) * m < W64 - 1 -> (forall k, G k) -> holds_sh sd m (own_blob sd) own_shard G st C ->
  in_shape (d_shape d) x -> element_at (sharded_view sd decode) st x = Some (val d C x).
Proof using sok dec.
  intros Hm HG HC Hx. destruct (elem_chunk ok Hx) as (Hv & _ & Hin & _). pose proof (elem_stored ok Hx) as Hs.
  pose proof (chunks_nonnil ok Hx) as Hn.
  unfold element_at. cbn [de_layout de_chunks sharded_view sharded_layout de_fill]. rewrite per_ok.
  fold (chunk_of (d_chunks d) x) (pos_of (d_chunks d) x).
  set (c := chunk_of (d_chunks d) x) in *. set (p := pos_of (d_chunks d) x) in *.
  fold (shard_of (sd_cps sd) c). destruct (HC c Hv (HG _)) as (blobs & SS & (R1 & R2 & R3)).
  destruct (R3 c Hv eq_refl) as (y & Gy & By).
  assert (Lc : length c = length (d_chunks d)) by apply (valid_length Hv).
  assert (Hk : shard_of (sd_cps sd) c <> []).
  { intros E. pose proof (shard_of_len sok Lc) as L. rewrite E in L. rewrite <- Lc in L. now destruct c. }
  rewrite <- (name_zarr (so_zarr sok) Hk).
  destruct SS as (S1 & S2 & S3). pose proof (blobs_total Hm S1 S2) as T.
  unfold val, chunk_val. fold c p. rewrite (stored_b sok c) in *.
  destruct (st (chunk_key (d_key d) (shard_of (sd_cps sd) c))) as [file|].
  2:{ pose proof (all_empty_at S3 Gy) as ->. destruct (C c) as [data|]; [|reflexivity]. now destruct By. }
  - destruct S3 as (-> & _). rewrite (@shard_element blobs c y p R1 T Lc Gy).
    destruct (C c) as [data|]; cbn [blob_rel] in By.
    + destruct By as (B1 & B2 & _ & B4). destruct y as [|y0 y]; [now elim B1|].
      apply (zarr_block_ok ok dec B2 B4). exact Hs.
    + subst y. reflexivity.
Qed.
End WithSharded.

Theorem sharded_layout_theorem sd decode ops st : sharded_ok sd ->
  undoes (prod (d_chunks (sd_base sd)) * t_width (d_type (sd_base sd))) decode (d_codec (sd_base sd)) ->
  can_write (d_mode (sd_base sd)) = true -> Forall (array_op_ok (sd_base sd)) ops ->
  (forall c, valid_chunk (d_shape (sd_base sd)) (d_chunks (sd_base sd)) c -> st (shard_key sd c) = None) ->
  exists st', run_sharded_ops sd ops st = (st', Ok tt) /\
    forall x, in_shape (d_shape (sd_base sd)) x -> exists v, element_at (sharded_view sd decode) st' x = Some v /\
      same_value (sd_base sd) v (apply_ops (sd_base sd) ops (fun _ => d_fill (sd_base sd)) x) /\
      (t_float (d_type (sd_base sd)) = false -> v = apply_ops (sd_base sd) ops (fun _ => d_fill (sd_base sd)) x).
Proof.
  intros sok dec Hm Hops Hst. destruct (so_blob sok) as (m & M1 & M2). pose proof (so_base sok) as ok.
  set (G := fun _ : shape => True). assert (HG : forall k, G k) by (intros; exact Logic.I).
  destruct (@run_sharded_ops_spec sd sok m M1 M2 (own_blob sd) (@own_blob_ok sd) own_shard (@own_shard_ok sd) G ops HG Hm Hops st _ _ (@holds_sh_empty sd sok m M1 M2 (own_blob sd) (@own_blob_ok sd) own_shard (@own_shard_ok sd) G st Hst) (@represents_empty (sd_base sd)))
    as (st' & C' & E & HC & HR & F).
  exists st'. split; [exact E|]. intros x Hx. exists (val (sd_base sd) C' x).
  split; [eapply sharded_element; eauto|]. split; [now apply HR|]. intros Hf.
  destruct (@val_cell_sh sd sok m (own_blob sd) own_shard G st' C' _ (HG _) HC Hx) as [V1 V2].
  destruct (@apply_ops_cells (sd_base sd) ok ops Hops (fun _ => d_fill (sd_base sd)) (fun _ _ => do_fill ok) _ Hx) as [A1 A2].
  eapply same_value_int; eauto.
Qed.
