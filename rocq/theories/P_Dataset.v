(** Proofs about the chunk API of plain datasets. *)
From Verif Require Import M_Base M_Text M_Key M_Blocking M_Bytes M_N5Header M_Format M_Mode M_Dataset
  S_Array S_Grid S_Bytes S_Text S_Format S_Dataset P_Base P_Blocking P_Roi P_Bytes P_Key P_Format.
Import List ListNotations.
Local Open Scope list_scope.
Local Open Scope N_scope.

Lemma set_key_same st k v : set_key st k v k = v.
Proof. unfold set_key. now rewrite String.eqb_refl. Qed.
Lemma set_key_other st k k' v : k' <> k -> set_key st k v k' = st k'.
Proof. intros H. unfold set_key. destruct (String.eqb_spec k' k); congruence. Qed.

Lemma slash_in_free s : slash_free s = true -> slash_in s = false.
Proof.
  induction s as [|c s IH]; cbn; [reflexivity|]. intros H. apply andb_prop in H as [H1 H2].
  destruct (Ascii.eqb c "/"); [discriminate|]. cbn. auto.
Qed.

Lemma all2_le_Forall l : forall m k, all2 (fun e b => e <= b) l m -> Forall (fun n => n < k) m ->
  Forall (fun n => n < k) l.
Proof.
  induction l as [|e l IH]; intros [|b m] k E H; cbn in E; try tauto; constructor.
  - inversion H; subst. lia.
  - inversion H; subst. eapply IH; [apply E|auto].
Qed.

(** The bytes of an n5 chunk begin with its header. *)
Lemma encode_header t cd fill defshape bshape data (vl : bool) k b :
  data_to_buffer false t cd fill defshape bshape data vl k = Ok (Some b) ->
  exists payload, b = (write_n5_header bshape vl (if vl then k else prodw bshape) ++ payload)%list.
Proof.
  unfold data_to_buffer. rewrite andb_false_r.
  destruct (lenN data <? _); [discriminate|].
  destruct (negb vl && _); [discriminate|]. destruct (vl && _); [discriminate|].
  unfold data_to_n5_format.
  match goal with |- context [bind ?x _] => destruct x as [z|e|] eqn:E end; cbn; try discriminate.
  intros H. injection H as <-.
  match type of E with bind ?x _ = _ => destruct x as [p|e|] end; cbn in E; try discriminate.
  injection E as <-. now exists p.
Qed.

Section WithDataset.
Variable d : dataset.
Hypothesis ok : dataset_ok d.
Notation w := (t_width (d_type d)).

Lemma chunks_pos : Forall (fun n => 0 < n) (d_chunks d).
Proof.
  destruct (do_dims ok) as [_ H]. revert H. generalize (d_shape d), (d_chunks d).
  intros s b. revert s. induction b as [|x b IH]; intros [|y s] H; cbn in H; try tauto; constructor.
  - tauto. - eapply IH. apply H.
Qed.
Lemma prod_chunks_pos : 0 < prod (d_chunks d).
Proof. apply prod_pos, chunks_pos. Qed.
Lemma prod_chunks_small : prod (d_chunks d) < W64.
Proof. pose proof (do_bytes ok). pose proof (do_width ok). nia. Qed.

Lemma extent_props c : valid_chunk (d_shape d) (d_chunks d) c ->
  Forall (fun n => 0 < n) (chunk_extent (d_shape d) (d_chunks d) c) /\
  prod (chunk_extent (d_shape d) (d_chunks d) c) <= prod (d_chunks d) /\
  all2 (fun e b => e <= b) (chunk_extent (d_shape d) (d_chunks d) c) (d_chunks d) /\
  length (chunk_extent (d_shape d) (d_chunks d) c) = length (d_chunks d).
Proof.
  destruct (do_dims ok) as [_ H]. revert H. generalize (d_shape d), (d_chunks d).
  intros s b. revert s c. induction b as [|x b IH]; intros [|y s] [|k c] H Hc; cbn in H, Hc; try tauto.
  - cbn. repeat split; try constructor. lia.
  - destruct H as [[H1 H2] H3], Hc as [Hk Hc]. destruct (IH s c H3 Hc) as (I1 & I2 & I3 & I4).
    cbn. repeat split; auto; try lia.
    + constructor; [lia|auto].
    + assert (N.min ((k + 1) * x) y - k * x <= x) by lia. nia.
Qed.

Lemma stored_props c : valid_chunk (d_shape d) (d_chunks d) c ->
  Forall (fun n => 0 < n) (stored_shape d c) /\
  0 < prod (stored_shape d c) /\ prod (stored_shape d c) <= prod (d_chunks d) /\
  prod (stored_shape d c) < W64 /\ prod (stored_shape d c) * w < W64 /\
  length (stored_shape d c) = length (d_chunks d).
Proof.
  intros Hc. destruct (extent_props Hc) as (E1 & E2 & E3 & E4).
  pose proof chunks_pos. pose proof prod_chunks_small. pose proof (do_bytes ok).
  unfold stored_shape. destruct (d_zarr d); repeat split; auto; try (apply prod_pos; auto); try lia.
  nia.
Qed.

Lemma valid_length c : valid_chunk (d_shape d) (d_chunks d) c ->
  length c = length (d_chunks d) /\ length (d_shape d) = length (d_chunks d).
Proof.
  intros H. unfold valid_chunk in H. apply all3_length in H. lia.
Qed.

Lemma handle_ok c : valid_chunk (d_shape d) (d_chunks d) c ->
  chunk_handle_of d (d_chunks d) c =
    Ok (ChunkHandle c (chunk_extent (d_shape d) (d_chunks d) c) (chunk_key (d_key d) c)).
Proof.
  intros H. destruct (valid_length H) as [L1 L2]. unfold chunk_handle_of, lenN.
  rewrite L1, L2, N.ltb_irrefl. destruct (block_shape_extent (do_dims ok) H) as (_ & -> & _). reflexivity.
Qed.

Lemma blocking_ok : exists bl, d_blocking d = Ok bl /\
  forall c, check_block bl c = true <-> valid_chunk (d_shape d) (d_chunks d) c.
Proof.
  pose proof (do_dims ok) as H. eexists. split; [apply (mk_blocking_ok H)|].
  intros c. apply (check_block_spec (s := d_shape d) (b := d_chunks d)); [exact H|apply (mk_blocking_ok H)].
Qed.

Lemma check_chunk_ok c h vl : valid_chunk (d_shape d) (d_chunks d) c -> ch_ids h = c ->
  check_chunk d h vl = if vl && d_zarr d then Throw ERuntime else Ok tt.
Proof.
  intros H <-. destruct blocking_ok as (bl & E & Hb). unfold check_chunk. rewrite E. cbn.
  rewrite (proj2 (Hb _) H). reflexivity.
Qed.

Lemma check_chunk_invalid h vl : ~ valid_chunk (d_shape d) (d_chunks d) (ch_ids h) ->
  check_chunk d h vl = Throw ERuntime.
Proof.
  intros H. destruct blocking_ok as (bl & E & Hb). unfold check_chunk. rewrite E. cbn.
  destruct (check_block bl (ch_ids h)) eqn:E1; [|reflexivity]. apply Hb in E1. contradiction.
Qed.

Lemma header_shape c : d_zarr d = false -> valid_chunk (d_shape d) (d_chunks d) c -> forall k, k < 2 ^ 32 ->
  header_ok (chunk_extent (d_shape d) (d_chunks d) c) k.
Proof.
  intros Hz Hc k Hk. destruct (do_header ok Hz) as [H1 H2]. destruct (extent_props Hc) as (_ & _ & E & L).
  destruct (valid_length Hc) as [_ L2]. split; [|split; [|exact Hk]].
  - unfold lenN in *. lia.
  - eapply all2_le_Forall; eauto.
Qed.

(** Writing never fails for lack of a directory. *)
Lemma store_write_ok c b st :
  store_write (d_key d) (chunk_key (d_key d) c) b st =
    (set_key st (chunk_key (d_key d) c) (Some b), Ok tt).
Proof.
  unfold store_write. destruct (k_zarr (d_key d)) eqn:Z; cbn; [|reflexivity].
  destruct (String.eqb_spec (k_delim (d_key d)) "/"); cbn; [reflexivity|].
  destruct (do_path ok) as [P|P]; [contradiction|].
  rewrite (slash_in_free (chunk_key_slash_free c Z P)). reflexivity.
Qed.

(** What a stored chunk must decode to. *)
Definition decodes (c : shape) (b : bytes) (vl : bool) (data : list cell) : Prop :=
  forall m out, buffer_of w m out -> lenN data <= m ->
    (vl = false -> m = prod (stored_shape d c)) ->
    exists rest, buffer_to_data (d_zarr d) (d_type d) (d_codec d) (d_chunks d) b out = Ok (vl, (data ++ rest)%list) /\
      out = (firstn (List.length data) out ++ rest)%list.

Definition chunk_holds (st : store) (c : shape) (r : option (bool * list cell)) : Prop :=
  match r with
  | None => st (chunk_key (d_key d) c) = None
  | Some (vl, data) =>
      exists b, st (chunk_key (d_key d) c) = Some b /\
        data_to_buffer (d_zarr d) (d_type d) (d_codec d) (d_fill d) (d_chunks d)
          (chunk_extent (d_shape d) (d_chunks d) c) data vl (if vl then lenN data else 0) = Ok (Some b) /\
        buffer_of w (lenN data) data /\
        (vl = false -> lenN data = prod (stored_shape d c)) /\
        (vl = true -> d_zarr d = false /\ 0 < lenN data /\ lenN data < 2 ^ 32 /\ lenN data * w < W64 /\
           lossless (lenN data * w) (d_codec d))
  end.

(** Encoding of valid data. *)
Lemma encode_ok c data : valid_chunk (d_shape d) (d_chunks d) c ->
  buffer_of w (prod (stored_shape d c)) data ->
  if all_fill d data
  then data_to_buffer (d_zarr d) (d_type d) (d_codec d) (d_fill d) (d_chunks d)
         (chunk_extent (d_shape d) (d_chunks d) c) data false 0 = Ok None
  else exists b, data_to_buffer (d_zarr d) (d_type d) (d_codec d) (d_fill d) (d_chunks d)
         (chunk_extent (d_shape d) (d_chunks d) c) data false 0 = Ok (Some b) /\
       forall out, buffer_of w (prod (stored_shape d c)) out ->
         buffer_to_data (d_zarr d) (d_type d) (d_codec d) (d_chunks d) b out = Ok (false, data).
Proof.
  intros Hc Hd. destruct (stored_props Hc) as (S1 & S2 & S3 & S4 & S5 & S6).
  unfold all_fill. unfold stored_shape in *.
  assert (H : (Forall (fun v => elem_eq (d_type d) v (d_fill d) = true) data ->
     data_to_buffer (d_zarr d) (d_type d) (d_codec d) (d_fill d) (d_chunks d)
         (chunk_extent (d_shape d) (d_chunks d) c) data false 0 = Ok None) /\
     (~ Forall (fun v => elem_eq (d_type d) v (d_fill d) = true) data ->
      exists b, data_to_buffer (d_zarr d) (d_type d) (d_codec d) (d_fill d) (d_chunks d)
         (chunk_extent (d_shape d) (d_chunks d) c) data false 0 = Ok (Some b) /\
       forall out, buffer_of w (prod (if d_zarr d then d_chunks d else chunk_extent (d_shape d) (d_chunks d) c)) out ->
         buffer_to_data (d_zarr d) (d_type d) (d_codec d) (d_chunks d) b out = Ok (false, data))).
  { destruct (d_zarr d) eqn:Z.
    - apply zarr_roundtrip; auto. apply (do_width ok). apply (do_codec ok).
    - apply n5_roundtrip; auto. apply (do_width ok).
      refine (lossless_le _ (do_codec ok)). nia. apply header_shape; auto. lia. }
  destruct H as [H1 H2]. destruct (forallb _ data) eqn:E.
  - apply H1. now apply all_equal_spec.
  - apply H2. intros F. apply all_equal_spec in F. congruence.
Qed.

Lemma write_chunk_spec c data st : can_write (d_mode d) = true ->
  valid_chunk (d_shape d) (d_chunks d) c -> buffer_of w (prod (stored_shape d c)) data ->
  exists v, write_chunk d c data false 0 st = (set_key st (chunk_key (d_key d) c) v, Ok tt) /\
    chunk_holds (set_key st (chunk_key (d_key d) c) v) c (op_result d (OpWrite c data)).
Proof.
  intros Hm Hc Hd. pose proof (encode_ok Hc Hd) as E. unfold write_chunk. rewrite Hm. cbn [negb].
  unfold sbind, pure. rewrite handle_ok by auto. rewrite (@check_chunk_ok c) by auto. cbn [andb ch_bounded ch_key].
  cbn [op_result]. destruct (all_fill d data) eqn:F.
  - rewrite E. exists None. split; [reflexivity|]. cbn. apply set_key_same.
  - destruct E as (b & E & _). rewrite E. exists (Some b). rewrite store_write_ok. split; [reflexivity|].
    cbn. exists b. rewrite set_key_same. split; [reflexivity|]. split; [exact E|].
    destruct Hd as [L Hd]. split; [now split|]. split; [intros _; exact L|discriminate].
Qed.

Lemma write_varlen_spec c data st : can_write (d_mode d) = true -> op_ok d (OpVarlen c data) ->
  exists v, write_chunk d c data true (lenN data) st = (set_key st (chunk_key (d_key d) c) v, Ok tt) /\
    chunk_holds (set_key st (chunk_key (d_key d) c) v) c (op_result d (OpVarlen c data)).
Proof.
  intros Hm (Hz & Hc & Hd & Hl & Hb & Hlo). unfold write_chunk. rewrite Hm. cbn [negb].
  unfold sbind, pure. rewrite handle_ok by auto. rewrite (@check_chunk_ok c) by auto.
  replace (true && d_zarr d) with false by (rewrite Hz; reflexivity). cbn [andb ch_bounded ch_key]. cbn [op_result].
  destruct data as [|x data].
  - exists None. rewrite Hz. rewrite n5_varlen_empty. split; [reflexivity|]. cbn. apply set_key_same.
  - destruct (@n5_varlen_roundtrip (d_type d) (d_codec d) (d_fill d) (d_chunks d)
      (chunk_extent (d_shape d) (d_chunks d) c) (x :: data) (lenN (x :: data))) as (b & E & _); auto.
    { apply (do_width ok). } { now apply header_shape. }
    { destruct (stored_props Hc) as (_ & _ & _ & S & _). unfold stored_shape in S. now rewrite Hz in S. }
    { rewrite lenN_cons. lia. }
    rewrite <- Hz in E. rewrite E. exists (Some b). rewrite store_write_ok. split; [reflexivity|].
    exists b. rewrite set_key_same. split; [reflexivity|]. split; [exact E|].
    repeat split; auto; try discriminate; try apply Hd; rewrite ?lenN_cons; lia.
Qed.

Lemma remove_chunk_spec c st : can_write (d_mode d) = true -> valid_chunk (d_shape d) (d_chunks d) c ->
  remove_chunk d c st = (set_key st (chunk_key (d_key d) c) None, Ok tt).
Proof.
  intros Hm Hc. unfold remove_chunk, sbind, pure. rewrite handle_ok by auto. rewrite Hm. reflexivity.
Qed.

Lemma key_inj c c' : chunk_key (d_key d) c = chunk_key (d_key d) c' -> c = c'.
Proof. apply chunk_key_inj. apply (do_sep ok). Qed.

Lemma holds_other st c c' v r : c <> c' -> chunk_holds st c r ->
  chunk_holds (set_key st (chunk_key (d_key d) c') v) c r.
Proof.
  intros Hn. assert (chunk_key (d_key d) c <> chunk_key (d_key d) c') by (intros E; apply Hn; now apply key_inj).
  unfold chunk_holds. destruct r as [[vl data]|]; rewrite set_key_other by auto; auto.
Qed.

(** Reading a chunk with known contents. *)
Lemma read_holds st c r : valid_chunk (d_shape d) (d_chunks d) c -> chunk_holds st c r ->
  chunk_exists d st c = Ok (match r with None => false | Some _ => true end) /\
  check_varlen_chunk d st c =
    Ok (match r with Some (true, data) => (true, lenN data)
                   | _ => (false, prod (chunk_extent (d_shape d) (d_chunks d) c)) end) /\
  (r = None -> forall out, read_chunk d st c out = Throw ERuntime) /\
  (forall vl data, r = Some (vl, data) ->
     forall m out, buffer_of w m out -> lenN data <= m -> (vl = false -> m = prod (stored_shape d c)) ->
     exists rest, read_chunk d st c out = Ok (vl, (data ++ rest)%list) /\
       out = (firstn (List.length data) out ++ rest)%list).
Proof.
  intros Hc H. destruct (extent_props Hc) as (_ & X1 & _).
  pose proof prod_chunks_small as X2.
  assert (X : prodw (chunk_extent (d_shape d) (d_chunks d) c) = prod (chunk_extent (d_shape d) (d_chunks d) c))
    by (apply prodw_small; lia).
  assert (R : forall out, read_chunk d st c out = match st (chunk_key (d_key d) c) with None => Throw ERuntime
     | Some b => buffer_to_data (d_zarr d) (d_type d) (d_codec d) (d_chunks d) b out end).
  { intros out. unfold read_chunk. rewrite handle_ok by auto. cbn [bind]. rewrite (@check_chunk_ok c) by auto.
    reflexivity. }
  unfold chunk_exists, check_varlen_chunk. rewrite handle_ok by auto. cbn [bind ch_key ch_bounded].
  rewrite X. destruct r as [[vl data]|].
  2:{ cbn in H. rewrite H. split; [reflexivity|]. split; [destruct (d_zarr d); reflexivity|].
      split; [intros _ out; rewrite R, H; reflexivity|discriminate]. }
  destruct H as (b & E & Eb & Hd & Hf & Ht). rewrite E. split; [reflexivity|].
  assert (D : forall vl' data', Some (vl, data) = Some (vl', data') ->
     forall m out, buffer_of w m out -> lenN data' <= m -> (vl' = false -> m = prod (stored_shape d c)) ->
     exists rest, read_chunk d st c out = Ok (vl', (data' ++ rest)%list) /\
       out = (firstn (List.length data') out ++ rest)%list).
  { intros vl' data' Q m out Hm Hl Hv. injection Q as <- <-. rewrite R, E. destruct vl.
    - destruct (Ht eq_refl) as (Hz & T1 & T2 & T3 & T4).
      destruct (@n5_varlen_roundtrip (d_type d) (d_codec d) (d_fill d) (d_chunks d)
        (chunk_extent (d_shape d) (d_chunks d) c) data (lenN data)) as (b' & E' & Hr); auto.
      { apply (do_width ok). } { now apply header_shape. } { lia. }
      rewrite Hz in Eb |- *. rewrite Eb in E'. injection E' as <-.
      destruct (Hr m out Hm Hl) as (rest & F1 & F2). exists rest. split; auto.
      rewrite F2 at 1. unfold lenN. rewrite Nnat.Nat2N.id. reflexivity.
    - specialize (Hf eq_refl). specialize (Hv eq_refl). exists nil. rewrite app_nil_r.
      rewrite Hf in Hd. pose proof (encode_ok Hc Hd) as En. destruct (all_fill d data); [congruence|].
      destruct En as (b' & E' & Hr). rewrite Eb in E'. injection E' as <-.
      rewrite Hr by (subst m; auto). split; [reflexivity|]. rewrite app_nil_r.
      rewrite firstn_all2; [reflexivity|]. destruct Hm as [Hm _]. unfold lenN in *. lia. }
  split; [|split; [discriminate|exact D]].
  destruct (d_zarr d) eqn:Z.
  { destruct vl; [destruct (Ht eq_refl); congruence|reflexivity]. }
  destruct (encode_header Eb) as (payload & ->).
  destruct vl.
  - destruct (Ht eq_refl) as (_ & T1 & T2 & T3 & T4).
    destruct (@n5_header_shape_roundtrip _ true (lenN data) payload (header_shape Z Hc T2)) as [_ ->]. reflexivity.
  - change (write_n5_header ?s false ?v) with (write_n5_header s false 0).
    destruct (@n5_header_shape_roundtrip (chunk_extent (d_shape d) (d_chunks d) c) false 0 payload) as [_ ->];
      [apply header_shape; auto; lia|reflexivity].
Qed.

(** Histories. *)
Lemma run_op_spec o st : can_write (d_mode d) = true -> op_ok d o ->
  exists v, run_op d o st = (set_key st (chunk_key (d_key d) (op_chunk o)) v, Ok tt) /\
    chunk_holds (set_key st (chunk_key (d_key d) (op_chunk o)) v) (op_chunk o) (op_result d o).
Proof.
  intros Hm Ho. destruct o as [c data|c data|c]; cbn [run_op op_chunk].
  - destruct Ho. now apply write_chunk_spec.
  - now apply write_varlen_spec.
  - exists None. split; [now apply remove_chunk_spec|]. cbn. apply set_key_same.
Qed.

Lemma run_ops_spec ops : can_write (d_mode d) = true -> Forall (op_ok d) ops -> forall st,
  exists st', run_ops d ops st = (st', Ok tt) /\
    (forall c r, chunk_holds st c r -> chunk_holds st' c (last_result d ops c r)) /\
    (forall c, (exists o, In o ops /\ op_chunk o = c) -> exists r, chunk_holds st' c r /\
        forall r', last_result d ops c r' = r) /\
    (forall k, (forall o, In o ops -> k <> chunk_key (d_key d) (op_chunk o)) -> st' k = st k).
Proof.
  intros Hm Ho. induction Ho as [|o ops H Ho IH]; intros st.
  - exists st. cbn. repeat split; auto. intros c (o & [] & _).
  - destruct (run_op_spec st Hm H) as (v & E & Hh).
    destruct (IH (set_key st (chunk_key (d_key d) (op_chunk o)) v)) as (st' & E' & I1 & I2 & I3).
    exists st'. unfold run_ops in *. cbn [foldS]. unfold sbind at 1. rewrite E. split; [exact E'|].
    assert (A : forall c r, chunk_holds (set_key st (chunk_key (d_key d) (op_chunk o)) v) c
        (if list_eq_dec N.eq_dec (op_chunk o) c then op_result d o else r) ->
        chunk_holds st' c (last_result d (o :: ops) c r)) by (intros c r Hr; apply I1, Hr).
    split; [|split].
    + intros c r Hr. apply A. destruct (list_eq_dec N.eq_dec (op_chunk o) c) as [<-|Hn]; auto.
      apply holds_other; auto.
    + intros c (o' & [<-|Hin] & Hc).
      * subst c. exists (last_result d (o :: ops) (op_chunk o) None). split.
        { apply A. destruct (list_eq_dec N.eq_dec (op_chunk o) (op_chunk o)); [auto|congruence]. }
        intros r'. cbn. destruct (list_eq_dec N.eq_dec (op_chunk o) (op_chunk o)); congruence.
      * destruct (I2 c) as (r & R1 & R2); [now exists o'|]. exists r. split; auto. intros r'. apply R2.
    + intros k Hk. rewrite I3 by (intros; apply Hk; cbn; auto). apply set_key_other. apply Hk. cbn; auto.
Qed.

Theorem chunk_map_theorem ops st : can_write (d_mode d) = true -> Forall (op_ok d) ops ->
  (forall c, valid_chunk (d_shape d) (d_chunks d) c -> st (chunk_key (d_key d) c) = None) ->
  exists st', run_ops d ops st = (st', Ok tt) /\
    (forall c, valid_chunk (d_shape d) (d_chunks d) c ->
      let r := last_result d ops c None in
      chunk_exists d st' c = Ok (match r with None => false | Some _ => true end) /\
      (r = None -> forall out, read_chunk d st' c out = Throw ERuntime) /\
      (forall vl data, r = Some (vl, data) ->
         check_varlen_chunk d st' c =
           Ok (vl, if vl then lenN data else prod (chunk_extent (d_shape d) (d_chunks d) c)) /\
         forall m out, buffer_of w m out -> lenN data <= m -> (vl = false -> m = prod (stored_shape d c)) ->
         exists rest, read_chunk d st' c out = Ok (vl, data ++ rest) /\
           out = firstn (length data) out ++ rest)) /\
    (forall k, (forall o, In o ops -> k <> chunk_key (d_key d) (op_chunk o)) -> st' k = st k).
Proof.
  intros Hm Ho H0. destruct (run_ops_spec Hm Ho st) as (st' & E & H1 & _ & H3).
  exists st'. split; [exact E|]. split; [|exact H3]. intros c Hc r.
  assert (Hr : chunk_holds st' c r) by (apply H1; cbn; auto).
  destruct (read_holds Hc Hr) as (R1 & R2 & R3 & R4). split; [exact R1|]. split; [exact R3|].
  intros vl data Ed. split; [|apply R4; exact Ed]. rewrite R2, Ed. destruct vl; reflexivity.
Qed.

Theorem chunk_frame ops st st' : can_write (d_mode d) = true -> Forall (op_ok d) ops ->
  run_ops d ops st = (st', Ok tt) -> forall c, (forall o, In o ops -> op_chunk o <> c) ->
  st' (chunk_key (d_key d) c) = st (chunk_key (d_key d) c).
Proof.
  intros Hm Ho E c Hn. destruct (run_ops_spec Hm Ho st) as (st2 & E2 & _ & _ & H3).
  rewrite E in E2. injection E2 as <-. apply H3. intros o Hi Hk. apply (Hn o Hi). symmetry. now apply key_inj.
Qed.

Theorem last_wins ops c st st' : can_write (d_mode d) = true -> Forall (op_ok d) ops ->
  run_ops d ops st = (st', Ok tt) -> (exists o, In o ops /\ op_chunk o = c) ->
  forall r0, chunk_exists d st' c = Ok (match last_result d ops c r0 with None => false | Some _ => true end).
Proof.
  intros Hm Ho E Hin r0. destruct (run_ops_spec Hm Ho st) as (st2 & E2 & _ & H2 & _).
  rewrite E in E2. injection E2 as <-. destruct (H2 c Hin) as (r & R1 & R2). rewrite R2.
  assert (Hc : valid_chunk (d_shape d) (d_chunks d) c).
  { destruct Hin as (o & Hi & <-). eapply Forall_forall in Ho; [|exact Hi]. destruct o; cbn in *; tauto. }
  apply (read_holds Hc R1).
Qed.

Theorem invalid_chunk ids : ~ valid_chunk (d_shape d) (d_chunks d) ids ->
  (length (d_chunks d) <= length ids)%nat ->
  (forall data vl k st, exists e, write_chunk d ids data vl k st = (st, Throw e)) /\
  (forall st out, read_chunk d st ids out = Throw ERuntime).
Proof.
  intros Hi Hl.
  assert (L : length (d_shape d) = length (d_chunks d)) by (destruct (do_dims ok) as [_ H]; now apply all2_length in H).
  assert (Hh : exists h, chunk_handle_of d (d_chunks d) ids = Ok h /\ ch_ids h = ids).
  { unfold chunk_handle_of, lenN. rewrite L, N.ltb_irrefl. destruct (N.ltb_spec (N.of_nat (length ids)) (N.of_nat (length (d_chunks d)))); [lia|].
    eexists. split; reflexivity. }
  destruct Hh as (h & Eh & Ei). rewrite <- Ei in Hi. split.
  - intros data vl k st. unfold write_chunk. destruct (negb (can_write (d_mode d))); [eexists; reflexivity|].
    unfold sbind, pure. rewrite Eh. rewrite (check_chunk_invalid vl Hi). eexists; reflexivity.
  - intros st out. unfold read_chunk. rewrite Eh. cbn [bind]. rewrite (check_chunk_invalid false Hi). reflexivity.
Qed.

Theorem invalid_remove ids st st' c : ~ valid_chunk (d_shape d) (d_chunks d) ids ->
  remove_chunk d ids st = (st', Ok tt) -> valid_chunk (d_shape d) (d_chunks d) c ->
  st' (chunk_key (d_key d) c) = st (chunk_key (d_key d) c).
Proof.
  intros Hi H Hc. unfold remove_chunk, sbind, pure in H.
  unfold chunk_handle_of in H. destruct (_ <? _); [discriminate|]. destruct (_ <? _); [discriminate|].
  destruct (negb _); [discriminate|]. injection H as <-. apply set_key_other.
  intros E. apply key_inj in E. subst. contradiction.
Qed.

(** zarr and variable length data *)
Theorem zarr_varlen_write ids data k st : d_zarr d = true -> valid_chunk (d_shape d) (d_chunks d) ids ->
  exists e, write_chunk d ids data true k st = (st, Throw e).
Proof.
  intros Hz Hc. unfold write_chunk. destruct (negb _); [eexists; reflexivity|].
  unfold sbind, pure. rewrite handle_ok by auto. rewrite (@check_chunk_ok ids) by auto. rewrite Hz. eexists; reflexivity.
Qed.
End WithDataset.
