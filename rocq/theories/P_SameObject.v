(** Two dataset objects that stand for the same array behave the same in every
    call. *)
From Coq Require Import ZArith String.
From Verif Require Import M_Base P_Base M_Text M_Key M_Blocking M_View M_Bytes M_N5Header M_Format M_Mode
  M_Shard M_Dataset M_Sharded M_Access M_Metadata S_Metadata M_Container S_Container.
Import ListNotations.
Local Open Scope list_scope.
Local Open Scope N_scope.

Lemma sbind_ext A B (m m' : action A) (f f' : A -> action B) st :
  m st = m' st -> (forall a st', f a st' = f' a st') -> sbind m f st = sbind m' f' st.
Proof. intros E H. unfold sbind. rewrite E. destruct (m' st) as [s' [a| |]]; auto. Qed.

Lemma foldS_ext A B (f g : B -> A -> action B) : (forall b a st, f b a st = g b a st) ->
  forall xs b st, foldS f xs b st = foldS g xs b st.
Proof.
  intros H. induction xs as [|x xs IH]; intros b st; [reflexivity|]. cbn [foldS].
  apply sbind_ext; [apply H|]. intros. apply IH.
Qed.

Lemma foldM_ext A B (f g : B -> A -> outcome B) : (forall b a, f b a = g b a) ->
  forall xs b, foldM f xs b = foldM g xs b.
Proof.
  intros H. induction xs as [|x xs IH]; intros b; [reflexivity|]. cbn [foldM].
  rewrite H. destruct (g b x); [cbn [bind]; apply IH|reflexivity|reflexivity].
Qed.

Record keys_alike (k k' : key_config) : Prop := {
  ka_zarr : k_zarr k' = k_zarr k;
  ka_sep : k_zarr k = true -> k_delim k' = k_delim k;
  ka_keys : forall ids, chunk_key k' ids = chunk_key k ids
}.

Section Plain.
  Variables (sh ch : shape) (k k' : key_config) (t : elem_type) (fill : cell) (co : codec) (md : mode).
  Hypothesis K : keys_alike k k'.
  Let d := Dataset sh ch k t fill co md.
  Let d' := Dataset sh ch k' t fill co md.

  Lemma handle_same blk ids : chunk_handle_of d' blk ids = chunk_handle_of d blk ids.
  Proof. unfold chunk_handle_of. cbn. now rewrite (ka_keys K). Qed.
  Lemma zarr_same : d_zarr d' = d_zarr d.
  Proof. apply (ka_zarr K). Qed.
  Lemma store_write_same key b st : store_write k' key b st = store_write k key b st.
  Proof.
    unfold store_write. rewrite (ka_zarr K). destruct (k_zarr k) eqn:Z; [|reflexivity].
    now rewrite (ka_sep K Z).
  Qed.
  Lemma check_same h v : check_chunk d' h v = check_chunk d h v.
  Proof. unfold check_chunk. now rewrite zarr_same. Qed.

  Lemma write_chunk_same ids data v n st : write_chunk d' ids data v n st = write_chunk d ids data v n st.
  Proof.
    unfold write_chunk. cbn [d_mode d d' d_chunks d_type d_codec d_fill]. destruct negb; [reflexivity|].
    apply sbind_ext; [unfold pure; now rewrite handle_same|]. intros h st1.
    apply sbind_ext; [unfold pure; now rewrite check_same|]. intros _ st2.
    apply sbind_ext; [unfold pure; now rewrite zarr_same|]. intros [b|] st3; [|reflexivity].
    apply store_write_same.
  Qed.
  Lemma read_chunk_same st ids out : read_chunk d' st ids out = read_chunk d st ids out.
  Proof.
    unfold read_chunk. rewrite handle_same. cbn [d_chunks d d'].
    destruct chunk_handle_of as [h| |]; try reflexivity. cbn [bind].
    rewrite check_same. destruct check_chunk; try reflexivity. cbn [bind].
    destruct store_read; [|reflexivity]. now rewrite zarr_same.
  Qed.
  Lemma raw_same st ids : read_raw_chunk d' st ids = read_raw_chunk d st ids.
  Proof. unfold read_raw_chunk. now rewrite handle_same. Qed.
  Lemma exists_same st ids : chunk_exists d' st ids = chunk_exists d st ids.
  Proof. unfold chunk_exists. now rewrite handle_same. Qed.
  Lemma shape_same ids : get_chunk_shape d' ids = get_chunk_shape d ids.
  Proof. unfold get_chunk_shape. now rewrite handle_same. Qed.
  Lemma varlen_same st ids : check_varlen_chunk d' st ids = check_varlen_chunk d st ids.
  Proof. unfold check_varlen_chunk. now rewrite handle_same, zarr_same. Qed.
  Lemma remove_same ids st : remove_chunk d' ids st = remove_chunk d ids st.
  Proof.
    unfold remove_chunk. apply sbind_ext; [unfold pure; now rewrite handle_same|]. reflexivity.
  Qed.

  Lemma read_unit_same st ov off n state c : read_unit d' st ov off n state c = read_unit d st ov off n state c.
  Proof. unfold read_unit. now rewrite exists_same, shape_same, raw_same, zarr_same. Qed.
  Lemma read_same st ov off out : read_subarray d' st ov off out = read_subarray d st ov off out.
  Proof.
    unfold read_subarray. change (begin_request d' off (v_shape ov)) with (begin_request d off (v_shape ov)).
    destruct begin_request; try reflexivity. cbn [bind]. unfold read_plain.
    rewrite (foldM_ext (read_unit_same st ov off (v_shape ov))). reflexivity.
  Qed.

  Lemma existing_same st c buf : plain_existing d' st c buf = plain_existing d st c buf.
  Proof. unfold plain_existing. now rewrite exists_same, read_chunk_same. Qed.
  Lemma prepare_same off n c src f g buf : (forall b, f b = g b) ->
    prepare_chunk d' off n c src f buf = prepare_chunk d off n c src g buf.
  Proof.
    intros H. unfold prepare_chunk. rewrite shape_same, zarr_same. cbn [d_chunks d_shape d_type d_fill d d'].
    destruct coords_in_roi; try reflexivity. cbn [bind]. destruct get_chunk_shape; try reflexivity. cbn [bind].
    destruct (r_complete _ && _); [reflexivity|]. now rewrite H.
  Qed.
  Lemma write_unit_same src off n buf c st :
    write_unit d' src off n buf c st = write_unit d src off n buf c st.
  Proof.
    unfold write_unit. apply sbind_ext.
    - unfold reading. erewrite prepare_same; [reflexivity|]. intros b. apply existing_same.
    - intros b st'. apply sbind_ext; [apply write_chunk_same|]. reflexivity.
  Qed.
  Lemma write_same src off n st : write_request d' src off n st = write_request d src off n st.
  Proof.
    unfold write_request. apply sbind_ext; [reflexivity|]. intros reqs st'. unfold write_plain.
    apply sbind_ext; [|reflexivity]. apply foldS_ext. intros. apply write_unit_same.
  Qed.

  (** Sharded datasets. *)
  Variables (ss cps : shape).
  Let sd := Sharded d ss cps.
  Let sd' := Sharded d' ss cps.

  Lemma shard_handle_same c : shard_handle sd' c = shard_handle sd c.
  Proof. apply handle_same. Qed.
  Lemma blobs_same st c : read_shard_blobs sd' st c = read_shard_blobs sd st c.
  Proof. unfold read_shard_blobs. now rewrite shard_handle_same. Qed.
  Lemma shard_raw_same st c : read_shard_raw sd' st c = read_shard_raw sd st c.
  Proof. unfold read_shard_raw. now rewrite shard_handle_same. Qed.
  Lemma read_shard_same st ids : read_shard sd' st ids = read_shard sd st ids.
  Proof.
    unfold read_shard. cbn [sd_cps sd sd']. destruct shard_id; try reflexivity. cbn [bind].
    now rewrite shard_handle_same.
  Qed.
  Lemma write_blobs_same c bs st : write_shard_blobs sd' c bs st = write_shard_blobs sd c bs st.
  Proof.
    unfold write_shard_blobs. cbn [sd_base sd sd' d_mode d d' d_key]. destruct negb; [reflexivity|].
    apply sbind_ext; [unfold pure; now rewrite shard_handle_same|]. intros h st'.
    destruct all_slots_empty; [reflexivity|]. apply store_write_same.
  Qed.
  Lemma blob_same ids data : make_chunk_blob sd' ids data = make_chunk_blob sd ids data.
  Proof.
    unfold make_chunk_blob. cbn [sd_base sd sd']. rewrite handle_same. cbn [d_chunks d d'].
    destruct chunk_handle_of; try reflexivity. cbn [bind]. now rewrite zarr_same.
  Qed.
  Lemma inner_same ids b st : write_inner_blob sd' ids b st = write_inner_blob sd ids b st.
  Proof.
    unfold write_inner_blob. apply sbind_ext; [reflexivity|]. intros c st1.
    apply sbind_ext; [reflexivity|]. intros sl st2.
    apply sbind_ext; [unfold reading; now rewrite blobs_same|]. intros bs st3.
    apply sbind_ext; [reflexivity|]. intros bs' st4. apply write_blobs_same.
  Qed.
  Lemma sh_write_chunk_same ids data v st : sh_write_chunk sd' ids data v st = sh_write_chunk sd ids data v st.
  Proof.
    unfold sh_write_chunk. cbn [sd_base sd sd' d_mode d d' d_chunks]. destruct negb; [reflexivity|].
    apply sbind_ext; [unfold pure; now rewrite handle_same|]. intros h st1.
    apply sbind_ext; [reflexivity|]. intros bl st2.
    destruct negb; [reflexivity|]. destruct v; [reflexivity|].
    apply sbind_ext; [unfold pure; now rewrite blob_same|]. intros b st3. apply inner_same.
  Qed.
  Lemma sh_read_chunk_same st ids out : sh_read_chunk sd' st ids out = sh_read_chunk sd st ids out.
  Proof. unfold sh_read_chunk, sh_read_raw_chunk. now rewrite read_shard_same. Qed.
  Lemma sh_exists_same st ids : sh_chunk_exists sd' st ids = sh_chunk_exists sd st ids.
  Proof. unfold sh_chunk_exists. now rewrite read_shard_same. Qed.
  Lemma sh_remove_same ids st : sh_remove_chunk sd' ids st = sh_remove_chunk sd ids st.
  Proof. apply inner_same. Qed.

  Lemma sh_read_same st ov off out : sh_read_subarray sd' st ov off out = sh_read_subarray sd st ov off out.
  Proof.
    unfold sh_read_subarray.
    change (begin_request (sd_base sd') off (v_shape ov)) with (begin_request (sd_base sd) off (v_shape ov)).
    destruct begin_request; try reflexivity. cbn [bind sd_base sd sd' d_chunks d d' sd_shard d_type].
    destruct chunks_per_shard; try reflexivity. cbn [bind].
    destruct group_chunks; try reflexivity. cbn [bind].
    rewrite (@foldM_ext _ _ (shard_read_unit sd' st ov off (v_shape ov)) (shard_read_unit sd st ov off (v_shape ov))).
    - reflexivity.
    - intros b g. unfold shard_read_unit. now rewrite shard_raw_same.
  Qed.
  Lemma shard_write_chunk_same src off n b c :
    shard_write_chunk sd' src off n b c = shard_write_chunk sd src off n b c.
  Proof.
    unfold shard_write_chunk. destruct b as [buf bs]. cbn [sd_cps sd sd'].
    destruct shard_slot; try reflexivity. cbn [bind]. destruct getN as [bl| |]; try reflexivity. cbn [bind].
    cbn [sd_base]. erewrite prepare_same by (intros; reflexivity).
    destruct prepare_chunk; try reflexivity. cbn [bind]. fold sd sd'. now rewrite blob_same.
  Qed.
  Lemma sh_write_same src off n st : sh_write_request sd' src off n st = sh_write_request sd src off n st.
  Proof.
    unfold sh_write_request. apply sbind_ext; [reflexivity|]. intros reqs st1. unfold write_sharded.
    cbn [sd_base sd sd' d_mode d d' d_chunks sd_shard d_fill]. destruct negb; [reflexivity|].
    apply sbind_ext; [reflexivity|]. intros cp st2. apply sbind_ext; [reflexivity|]. intros gs st3.
    apply sbind_ext; [|reflexivity]. apply foldS_ext. intros b g st4. unfold shard_write_unit.
    apply sbind_ext.
    - unfold reading. rewrite blobs_same. destruct read_shard_blobs; try reflexivity. cbn [bind].
      now rewrite (foldM_ext (shard_write_chunk_same src off n)).
    - intros r st5. apply sbind_ext; [apply write_blobs_same|]. reflexivity.
  Qed.
End Plain.


Theorem same_object_calls t f c o o' : same_object o o' ->
  (forall x y, same_codec x y -> c x = c y) ->
  same_calls (dataset_of t f c o) (dataset_of t f c o').
Proof.
  intros S C. unfold dataset_of.
  rewrite (so_shape S), (so_chunks S), (so_dtype S), (so_fill S), (so_mode S), <- (C _ _ (so_codec S)).
  assert (K : keys_alike (op_keys o) (op_keys o')) by (split; apply S).
  split; intros.
  - now apply write_chunk_same. - now apply read_chunk_same. - now apply exists_same.
  - now apply varlen_same. - now apply remove_same. - now apply write_same. - now apply read_same.
Qed.

Theorem same_object_shard_calls t f c o o' : same_object o o' ->
  (forall x y, same_codec x y -> c x = c y) -> k_zarr (op_keys o) = true ->
  match open_sharded (dataset_of t f c o) (op_shard o), open_sharded (dataset_of t f c o') (op_shard o') with
  | Ok sd, Ok sd' => same_shard_calls sd sd'
  | Throw e, Throw e' => e = e'
  | UB, UB => True
  | _, _ => False
  end.
Proof.
  intros S C Z. unfold dataset_of.
  rewrite (so_shape S), (so_chunks S), (so_dtype S), (so_fill S), (so_mode S), (so_shard S), <- (C _ _ (so_codec S)).
  unfold open_sharded. cbn [d_chunks d_key d_shape d_type d_fill d_codec d_mode].
  destruct chunks_per_shard as [cps| |]; [|reflexivity|exact Logic.I]. cbn [bind].
  assert (K : keys_alike (KeyConfig true (k_delim (op_keys o)) (k_format (op_keys o)) (k_encoding (op_keys o)))
                         (KeyConfig true (k_delim (op_keys o')) (k_format (op_keys o')) (k_encoding (op_keys o')))).
  { split; cbn; [reflexivity|intros _; now apply (so_delim S)|].
    intros ids. assert (X := so_keys S ids). assert (Z' := so_zarr S). rewrite Z in Z'.
    unfold chunk_key in *. cbn. now rewrite Z, Z' in X. }
  split; intros.
  - now apply sh_write_chunk_same. - now apply sh_read_chunk_same. - now apply sh_exists_same.
  - now apply sh_remove_same. - now apply sh_write_same. - now apply sh_read_same.
Qed.
