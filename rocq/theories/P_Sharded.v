(** Sub-array access of sharded datasets refines an n-dimensional array. *)
From Verif Require Import M_Base M_Text M_Key M_Blocking M_View M_Bytes M_N5Header M_Format M_Mode M_Shard
  M_Dataset M_Sharded M_Access
  S_Array S_Grid S_Bytes S_Text S_Format S_Shard S_Dataset S_Access S_Sharded
  P_Base P_Blocking P_Roi P_View P_Bytes P_Key P_Format P_Shard P_Dataset P_Access P_Read P_History.
Import List ListNotations.
From Coq Require Import Permutation Sorted.
Local Open Scope list_scope.
Local Open Scope N_scope.

(** ** Grouping by shard *)
Lemma shape_eqb_spec a b : shape_eqb a b = true <-> a = b.
Proof.
  revert b. induction a as [|x a IH]; intros [|y b]; cbn; try (split; congruence).
  rewrite andb_true_iff, N.eqb_eq, IH. split; [intros [-> ->]; reflexivity|intros [= -> ->]; auto].
Qed.

(** [g] is a grouping of the chunks [l] by [f]. *)
Definition grouping (f : shape -> shape) (g : list (shape * list shape)) (l : list shape) : Prop :=
  NoDup (map fst g) /\ Permutation (concat (map snd g)) l /\
  (forall k cs c, In (k, cs) g -> In c cs -> f c = k) /\
  (forall k cs, In (k, cs) g -> cs <> []).

Lemma group_insert_keys k c g k' : In k' (map fst (group_insert k c g)) <-> k' = k \/ In k' (map fst g).
Proof.
  induction g as [|[k0 cs] g IH]; cbn; [intuition congruence|].
  destruct (shape_eqb k k0) eqn:E.
  - apply shape_eqb_spec in E. subst. cbn. intuition congruence.
  - destruct (shape_ltb k k0); cbn; [intuition congruence|]. rewrite IH. intuition congruence.
Qed.
Lemma ltb_trans a : forall b c, shape_ltb a b = true -> shape_ltb b c = true -> shape_ltb a c = true.
Proof.
  induction a as [|x a IH]; intros [|y b] [|z c]; cbn; try congruence; try tauto.
  rewrite !orb_true_iff, !andb_true_iff, !N.ltb_lt, !N.eqb_eq.
  intros [H|[-> H]] [H'|[-> H']]; try (left; lia). right. split; auto. eapply IH; eauto.
Qed.
Lemma ltb_irrefl a : shape_ltb a a = false.
Proof.
  induction a as [|x a IH]; cbn; [reflexivity|]. rewrite IH, N.eqb_refl, N.ltb_irrefl. reflexivity.
Qed.
Lemma ltb_total a : forall b, shape_eqb a b = false -> shape_ltb a b = false -> shape_ltb b a = true.
Proof.
  induction a as [|x a IH]; intros [|y b]; cbn; try congruence; auto.
  intros H1 H2. apply orb_false_iff in H2 as [H2 H3]. apply N.ltb_ge in H2.
  destruct (N.eqb_spec x y) as [->|Hn]; cbn in *.
  - rewrite N.eqb_refl, N.ltb_irrefl. cbn. apply IH; auto.
  - destruct (N.ltb_spec y x); [reflexivity|lia].
Qed.
(** The map is sorted by its keys. *)
Definition sorted (g : list (shape * list shape)) : Prop :=
  StronglySorted (fun a b => shape_ltb a b = true) (map fst g).

Lemma group_insert_spec f k c g l : f c = k -> grouping f g l -> sorted g ->
  grouping f (group_insert k c g) (l ++ [c]) /\ sorted (group_insert k c g).
Proof.
  intros Hf (G1 & G2 & G3 & G4) S.
  assert (R : sorted (group_insert k c g) /\ Permutation (concat (map snd (group_insert k c g))) (concat (map snd g) ++ [c]) /\
    (forall k' cs' c', In (k', cs') (group_insert k c g) -> In c' cs' -> f c' = k') /\
    (forall k' cs', In (k', cs') (group_insert k c g) -> cs' <> [])).
  { clear G1 G2 l. induction g as [|[k0 cs] g IH]; cbn [group_insert].
    - split; [repeat constructor|]. split; [reflexivity|]. split.
      + intros k' cs' c' [[= <- <-]|[]] [<-|[]]. exact Hf.
      + intros k' cs' [[= <- <-]|[]]. discriminate.
    - destruct (shape_eqb k k0) eqn:E.
      + apply shape_eqb_spec in E. subst k0. split; [exact S|]. split; [|split].
        * cbn. rewrite <- !app_assoc. apply Permutation_app_head, Permutation_app_comm.
        * intros k' cs' c' [[= <- <-]|H] Hin; [|eapply G3; [right; exact H|exact Hin]].
          apply in_app_iff in Hin as [Hin|[<-|[]]]; [|exact Hf]. eapply G3; [left; reflexivity|exact Hin].
        * intros k' cs' [[= <- <-]|H]; [destruct cs; discriminate|eapply G4; right; exact H].
      + destruct (shape_ltb k k0) eqn:E2.
        * split; [|split; [|split]].
          -- constructor; [exact S|]. cbn. inversion S; subst. constructor; [exact E2|].
             eapply Forall_impl; [|eassumption]. intros a Ha. eapply ltb_trans; eauto.
          -- cbn. change (c :: cs ++ concat (map snd g)) with ([c] ++ (cs ++ concat (map snd g))). apply Permutation_app_comm.
          -- intros k' cs' c' [[= <- <-]|H] Hin; [destruct Hin as [<-|[]]; exact Hf|]. eapply G3; eauto.
          -- intros k' cs' [[= <- <-]|H]; [discriminate|]. eapply G4; eauto.
        * inversion S as [|? ? S1 S2]; subst.
          destruct IH as (I1 & I2 & I3 & I4); auto.
          { intros k' cs' c' H. eapply G3. right; exact H. } { intros k' cs' H. eapply G4. right; exact H. }
          split; [|split; [|split]].
          -- constructor; [exact I1|]. apply Forall_forall. intros a Ha.
             apply group_insert_keys in Ha as [->|Ha]; [now apply ltb_total|].
             rewrite Forall_forall in S2. now apply S2.
          -- cbn. rewrite <- app_assoc. apply Permutation_app_head, I2.
          -- intros k' cs' c' [[= <- <-]|H] Hin; [eapply G3; [left; reflexivity|exact Hin]|eapply I3; eauto].
          -- intros k' cs' [[= <- <-]|H]; [eapply G4; left; reflexivity|eapply I4; eauto]. }
  destruct R as (R1 & R2 & R3 & R4). split; [|exact R1]. split; [|split; [|split]]; auto.
  - clear -R1. unfold sorted in R1. induction R1 as [|a m S IH HF]; constructor; auto.
    intros Hin. rewrite Forall_forall in HF. specialize (HF a Hin). rewrite ltb_irrefl in HF. discriminate.
  - rewrite R2. now apply Permutation_app_tail.
Qed.

Lemma group_chunks_spec cps reqs : pos_all cps -> (forall c, In c reqs -> length c = length cps) ->
  exists g, group_chunks cps reqs = Ok g /\ grouping (shard_of cps) g reqs.
Proof.
  intros Hp Hl. unfold group_chunks.
  enough (H : forall rest done g, grouping (shard_of cps) g done -> sorted g ->
    (forall c, In c rest -> length c = length cps) ->
    exists g', foldM (fun g c => let! k := shard_id c cps in Ok (group_insert k c g)) rest g = Ok g' /\
      grouping (shard_of cps) g' (done ++ rest)).
  { apply (H reqs [] []); auto; [|constructor]. repeat split; cbn; try constructor; intros; contradiction. }
  clear reqs Hl. induction rest as [|c rest IH]; intros dn g G S Hl; cbn [foldM].
  - exists g. rewrite app_nil_r. auto.
  - rewrite shard_id_spec by (auto; apply Hl; cbn; auto). cbn [bind].
    destruct (@group_insert_spec (shard_of cps) (shard_of cps c) c g dn eq_refl G S) as [G' S'].
    destruct (IH (dn ++ [c]) _ G' S') as (g' & E & G2); [intros; apply Hl; cbn; auto|].
    exists g'. split; [exact E|]. rewrite <- app_assoc in G2. exact G2.
Qed.

(** ** Extracting blobs *)
Lemma extract_getN shard es : forall blobs, extract_shard_blobs shard es = Ok blobs ->
  forall i e, getN es i = Ok e -> exists x, getN blobs i = Ok x /\
    if entry_empty e then x = [] else read_bytes shard (e_offset e) (e_nbytes e) = Ok x.
Proof.
  induction es as [|e0 es IH]; intros blobs E i e He.
  - apply getN_ok in He. destruct (N.to_nat i); discriminate.
  - cbn [extract_shard_blobs] in E.
    destruct (if entry_empty e0 then Ok [] else read_bytes shard (e_offset e0) (e_nbytes e0)) as [x0| |] eqn:E0; cbn [bind] in E; try discriminate.
    destruct (extract_shard_blobs shard es) as [r| |] eqn:Er; cbn [bind] in E; try discriminate. injection E as <-.
    apply getN_ok in He. destruct (N.to_nat i) as [|k] eqn:Ek; cbn in He.
    + injection He as <-. exists x0. split; [apply getN_ok; rewrite Ek; reflexivity|].
      destruct (entry_empty e0); congruence.
    + destruct (IH r eq_refl (N.of_nat k) e) as (x & Hx & Hx2).
      { apply getN_ok. rewrite Nnat.Nat2N.id. exact He. }
      exists x. split; [|exact Hx2]. apply getN_ok in Hx. rewrite Nnat.Nat2N.id in Hx. apply getN_ok. rewrite Ek. exact Hx.
Qed.
Lemma extract_len shard es : forall blobs, extract_shard_blobs shard es = Ok blobs -> lenN es = lenN blobs.
Proof.
  induction es as [|e es IH]; intros blobs H; cbn [extract_shard_blobs] in H; [now injection H as <-|].
  destruct (if entry_empty e then _ else _) as [x|q|]; cbn [bind] in H; try discriminate.
  destruct (extract_shard_blobs shard es) as [r|q|]; cbn [bind] in H; try discriminate. injection H as <-.
  rewrite !lenN_cons, (IH r eq_refl). reflexivity.
Qed.

Lemma read_bytes_len b o n x : read_bytes b o n = Ok x -> lenN x = n.
Proof.
  unfold read_bytes. destruct (N.leb_spec (o + n) (lenN b)) as [H|]; [|discriminate]. intros [= <-].
  unfold lenN in *. rewrite firstn_length, skipn_length. lia.
Qed.

Lemma concat_bound (m : N) (blobs : list bytes) : Forall (fun x => lenN x <= m) blobs ->
  lenN (concat blobs) <= lenN blobs * m.
Proof.
  induction 1 as [|x l Hx Hl IH]; [cbn [concat]; rewrite !lenN_nil; lia|]. cbn [concat]. rewrite lenN_app, lenN_cons, N.mul_add_distr_r. cbv beta in Hx. lia.
Qed.
Lemma all_empty_repeat (blobs : list bytes) : all_slots_empty blobs = true -> blobs = repeat [] (length blobs).
Proof.
  induction blobs as [|x l IH]; cbn; [reflexivity|]. destruct x; cbn; [|discriminate]. intros H. now rewrite <- IH.
Qed.
Lemma all_empty_at (blobs : list bytes) i x : all_slots_empty blobs = true -> getN blobs i = Ok x -> x = [].
Proof.
  intros H E. rewrite (all_empty_repeat H) in E. apply getN_ok, nth_error_In, repeat_spec in E. exact E.
Qed.
Lemma all3_mul_len a c : forall b, all3 (fun n c b => 0 < c /\ n = c * b) a c b ->
  length a = length c /\ length b = length c /\ pos_all c.
Proof.
  revert a. induction c as [|c0 c IH]; intros [|a0 a] [|b0 b] H; cbn in *; try tauto.
  - repeat constructor.
  - destruct H as [H1 H2]. destruct (IH _ _ H2) as (L1 & L2 & P). repeat split; try lia. constructor; [lia|exact P].
Qed.
Lemma chunks_per_shard_ok a c : forall b, all3 (fun n c b => 0 < c /\ n = c * b) a c b -> Forall (fun n => 0 < n) b ->
  chunks_per_shard a b = Ok c.
Proof.
  revert a. induction c as [|c0 c IH]; intros [|a0 a] [|b0 b] H P; cbn in *; try tauto.
  inversion P as [|? ? P0 P1]; subst. destruct H as [[H1 ->] H2]. rewrite (IH _ _ H2) by auto. cbn [bind].
  destruct (N.eqb_spec b0 0); [lia|]. rewrite N.div_mul by lia. reflexivity.
Qed.
Lemma lenN_repeat {A} (x : A) n : lenN (repeat x n) = N.of_nat n.
Proof. unfold lenN. now rewrite repeat_length. Qed.

Section WithSharded.
Variable sd : sharded.
Hypothesis sok : sharded_ok sd.
Variable m : N.
Notation d := (sd_base sd).
Notation w := (t_width (d_type (sd_base sd))).
Notation s := (d_shape (sd_base sd)).
Notation b := (d_chunks (sd_base sd)).
Notation cps := (sd_cps sd).
Notation valid := (valid_chunk (d_shape (sd_base sd)) (d_chunks (sd_base sd))).
Hypothesis m_total : prod (sd_cps sd) * m < W64 - 1.
Hypothesis m_blob : forall data, buffer_of (t_width (d_type (sd_base sd))) (prod (d_chunks (sd_base sd))) data ->
      forall e, stored_as (d_codec (sd_base sd)) (concat data) e -> 0 < lenN e /\ lenN e <= m.
(** What else is known of the bytes of an inner chunk. *)
Variable Q : bytes -> list cell -> Prop.
Hypothesis own : forall data e, buffer_of (t_width (d_type (sd_base sd))) (prod (d_chunks (sd_base sd))) data ->
  stored_as (d_codec (sd_base sd)) (concat data) e -> Q e data.
(** What else is known of the file of a shard. *)
Variable FS : bytes -> list bytes -> Prop.
Hypothesis ownF : forall blobs, lenN blobs = prod (sd_cps sd) -> lenN (concat blobs) < W64 - 1 -> FS (build_shard blobs) blobs.

Let ok : dataset_ok d := so_base sok.

Lemma cps_pos : pos_all cps.
Proof. apply (all3_mul_len (so_cps sok)). Qed.
Lemma cps_len : length cps = length b.
Proof. symmetry. apply (all3_mul_len (so_cps sok)). Qed.
Lemma shard_len : length (sd_shard sd) = length b.
Proof. destruct (all3_mul_len (so_cps sok)) as (H1 & H2 & _). congruence. Qed.
Lemma dim_len : length s = length b.
Proof. destruct (do_dims ok) as [_ H]. now apply all2_length in H. Qed.
Lemma m_pos : 0 < m.
Proof using sok m_total m_blob. clear own Q ownF FS.
  set (z := repeat (zero_cell w) (N.to_nat (prod b))).
  assert (Z : buffer_of w (prod b) z).
  2:{ assert (exists e, stored_as (d_codec d) (concat z) e) as [e E].
      { unfold stored_as. destruct (cd_raw (d_codec d)) eqn:R; [eauto|].
        destruct (do_codec ok) as [L|L]; [congruence|]. destruct (L (concat z)) as (e & E & _); eauto.
        - exact (concat_bytes Z).
        - rewrite (lenN_concat (buffer_widths Z)), (proj1 Z). pose proof (do_width ok).
          pose proof (prod_chunks_pos ok). nia.
        - rewrite (lenN_concat (buffer_widths Z)), (proj1 Z). lia. }
      destruct (m_blob Z E). lia. }
  split; [unfold z; rewrite lenN_repeat; lia|].
  apply Forall_forall. intros e He. apply repeat_spec in He. subst e. unfold zero_cell. split; [rewrite lenN_repeat; lia|].
  apply Forall_forall. intros x Hx. apply repeat_spec in Hx. subst x. unfold is_byte. lia.
Qed.
Lemma slots_small : sd_slots sd = prod cps /\ prod cps < W64.
Proof using sok m_total m_blob. clear own Q ownF FS.
  pose proof m_pos. pose proof m_total as H1. rewrite W64_val in *. assert (prod cps < 18446744073709551616) by nia.
  split; [|lia]. unfold sd_slots, num_shard_slots. apply prodw_small. rewrite W64_val. lia.
Qed.
Lemma stored_b c : stored_shape d c = b.
Proof. unfold stored_shape. now rewrite (so_zarr sok). Qed.

Lemma shard_handle_ok c : length c = length b ->
  exists bs, shard_handle sd c = Ok (ChunkHandle c bs (chunk_key (d_key d) c)).
Proof using sok. clear m_total m_blob own Q ownF FS m.
  intros L. unfold shard_handle, chunk_handle_of.
  assert (lenN c <? lenN (sd_shard sd) = false) as -> by (apply N.ltb_ge; unfold lenN; rewrite shard_len; lia).
  assert (lenN s <? lenN (sd_shard sd) = false) as ->
    by (apply N.ltb_ge; unfold lenN; rewrite shard_len, dim_len; lia).
  eauto.
Qed.
Lemma shard_of_len c : length c = length b -> length (shard_of cps c) = length b.
Proof. intros L. unfold shard_of. rewrite map2_length; [exact L|]. rewrite cps_len. exact L. Qed.

Definition slot_of (c : shape) : N := rowmajor cps (pos_in_shard cps c).
Lemma slot_ok c : length c = length b -> shard_slot c cps = Ok (slot_of c) /\ slot_of c < prod cps.
Proof using sok m_total m_blob. clear own Q ownF FS.
  intros L. apply shard_slot_spec; [exact cps_pos|rewrite cps_len; exact L|]. pose proof slots_small. lia.
Qed.
Lemma slot_inj c c' : length c = length b -> length c' = length b ->
  shard_of cps c = shard_of cps c' -> slot_of c = slot_of c' -> c = c'.
Proof using sok. clear m_total m_blob own Q ownF FS m.
  intros L L' E1 E2. pose proof cps_pos as CP. pose proof cps_len as CL.
  apply (shard_pos_inj CP); try lia; auto. eapply rowmajor_inj; [| |exact E2]; apply pos_in_shape; auto; lia.
Qed.
Lemma valid_len c : valid c -> length c = length b.
Proof. intros H. apply (valid_length H). Qed.

(** ** Shards in the store *)
Definition shard_state (st : store) (coord : shape) (blobs : list bytes) : Prop :=
  lenN blobs = prod cps /\ Forall (fun x => lenN x <= m) blobs /\
  match st (chunk_key (d_key d) coord) with
  | None => all_slots_empty blobs = true
  | Some file => FS file blobs /\ exists es, parse_shard_index file (prod cps) = Ok (Some es) /\
      extract_shard_blobs file es = Ok blobs /\ Forall2 (fun e x => entry_empty e = true <-> x = []) es blobs
  end.

Definition blob_rel (c : shape) (o : option (list cell)) (blob : bytes) : Prop :=
  match o with
  | None => blob = []
  | Some data => blob <> [] /\ buffer_of w (prod b) data /\
      (forall out, buffer_of w (prod b) out -> decompress (d_codec d) w blob out (prod b) = Ok data) /\
      Q blob data
  end.

Definition shard_rel (coord : shape) (C : shape -> option (list cell)) (blobs : list bytes) : Prop :=
  lenN blobs = prod cps /\ Forall (fun x => lenN x <= m) blobs /\
  forall c, valid c -> shard_of cps c = coord -> exists x, getN blobs (slot_of c) = Ok x /\ blob_rel c (C c) x.

Lemma blobs_total (blobs : list bytes) : lenN blobs = prod cps -> Forall (fun x => lenN x <= m) blobs -> lenN (concat blobs) < W64 - 1.
Proof using m_total. clear m_blob own Q ownF FS. intros L F. pose proof (concat_bound F). rewrite L in H. pose proof m_total. lia. Qed.

(** The shard that the blobs are stored as. *)
Lemma built_state st coord blobs : lenN blobs = prod cps -> Forall (fun x => lenN x <= m) blobs ->
  st (chunk_key (d_key d) coord) = (if all_slots_empty blobs then None else Some (build_shard blobs)) ->
  shard_state st coord blobs.
Proof using m_total ownF. clear m_blob own Q.
  intros S1 S2 S3. split; [exact S1|]. split; [exact S2|]. rewrite S3. destruct (all_slots_empty blobs); [reflexivity|].
  destruct (shard_roundtrip (blobs_total S1 S2)) as (es & P & X & H). rewrite S1 in P.
  split; [|eauto]. apply ownF; [exact S1|]. now apply blobs_total.
Qed.

Lemma read_blobs_ok st coord blobs : length coord = length b -> shard_state st coord blobs ->
  read_shard_blobs sd st coord = Ok blobs.
Proof using sok m_total m_blob. clear own Q ownF.
  intros L S. destruct (shard_handle_ok L) as [bs E]. unfold read_shard_blobs. rewrite E. cbn [bind ch_key].
  unfold store_read. destruct S as (S1 & S2 & S3).
  destruct slots_small as [-> _]. destruct (st (chunk_key (d_key d) coord)) as [file|].
  - destruct S3 as (_ & es & P & X & _). rewrite P. cbn [bind]. exact X.
  - rewrite (all_empty_repeat S3). unfold lenN in S1. do 2 f_equal. lia.
Qed.

(** The raw view of a shard that the read path uses. *)
Definition raw_slot (raw : option (bytes * list (N * N))) (slot : N) : outcome (option (bytes * (N * N))) :=
  match raw with
  | None => Ok None
  | Some (b, tbl) => let! e := getN tbl slot in if snd e =? 0 then Ok None else Ok (Some (b, e))
  end.
Lemma read_raw_ok st coord blobs : length coord = length b -> shard_state st coord blobs ->
  exists raw, read_shard_raw sd st coord = Ok raw /\
    forall i x, getN blobs i = Ok x ->
      match x with
      | [] => raw_slot raw i = Ok None
      | _ => exists bs o n, raw_slot raw i = Ok (Some (bs, (o, n))) /\ read_bytes bs o n = Ok x
      end.
Proof using sok m_total m_blob. clear own Q ownF.
  intros L S. destruct (shard_handle_ok L) as [bs E]. unfold read_shard_raw. rewrite E. cbn [bind ch_key].
  unfold store_read. destruct S as (S1 & S2 & S3).
  destruct slots_small as [-> _]. destruct (st (chunk_key (d_key d) coord)) as [file|].
  2:{ exists None. split; [reflexivity|]. intros i x Hx. rewrite (all_empty_at S3 Hx). reflexivity. }
  - destruct S3 as (_ & es & P & X & _). rewrite P. cbn [bind].
    eexists. split; [reflexivity|]. intros i x Hx.
    assert (LE : lenN es = lenN blobs) by (apply extract_len with (shard := file); exact X).
    destruct (@getN_in _ es i) as [e He]; [rewrite LE; eapply getN_bound; eauto|].
    destruct (extract_getN X He) as (x' & Hx' & Hr). rewrite Hx in Hx'. injection Hx' as <-.
    assert (Ht : getN (map (fun e => if entry_empty e then (0, 0) else (e_offset e, e_nbytes e)) es) i =
       Ok (if entry_empty e then (0, 0) else (e_offset e, e_nbytes e))).
    { apply getN_ok. apply getN_ok in He. rewrite nth_error_map, He. reflexivity. }
    cbn [raw_slot]. rewrite Ht. cbn [bind]. destruct (entry_empty e); [subst; reflexivity|].
    pose proof (read_bytes_len Hr) as Ln. cbn [snd].
    destruct x as [|x0 x]; [cbn in Ln; rewrite <- Ln; reflexivity|]. rewrite lenN_cons in Ln.
    destruct (N.eqb_spec (e_nbytes e) 0); [lia|]. eauto.
Qed.

(** ** Encoding of one inner chunk *)
Lemma make_blob_ok c data : valid c -> buffer_of w (prod b) data ->
  exists o, make_chunk_blob sd c data = Ok o /\
    (all_fill d data = true -> o = None) /\
    (all_fill d data = false -> exists e, o = Some e /\ lenN e <= m /\ blob_rel c (Some data) e).
Proof using sok m_blob own. clear m_total ownF FS.
  intros Hc Hd. unfold make_chunk_blob. rewrite (handle_ok ok Hc). cbn [bind ch_bounded].
  pose proof (@encode_ok d ok c data Hc) as H. rewrite stored_b in H. specialize (H Hd).
  destruct (all_fill d data) eqn:Ef.
  - rewrite H. eexists. split; [reflexivity|]. split; [auto|discriminate].
  - destruct H as (e & E & R). rewrite E. eexists. split; [reflexivity|]. split; [discriminate|]. intros _.
    exists e. split; [reflexivity|].
    assert (Ee : stored_as (d_codec d) (concat data) e).
    { unfold data_to_buffer in E. rewrite (so_zarr sok) in E. cbn [andb negb] in E.
      pose proof (prod_chunks_small ok) as PS. rewrite (prodw_small PS) in E. destruct Hd as [Ld _]. rewrite <- Ld in E.
      rewrite N.ltb_irrefl in E. cbn [andb] in E.
      match type of E with (if ?q then _ else _) = _ => destruct q; [discriminate|] end.
      unfold compress in E. rewrite N.ltb_irrefl in E. cbn [bind] in E. rewrite firstn_exact in E by reflexivity.
      unfold stored_as. destruct (cd_raw (d_codec d)); [cbn in E; congruence|]. destruct (cd_enc _ _); cbn in E; congruence. }
    destruct (m_blob Hd Ee) as [M1 M2]. split; [exact M2|]. split; [|split; [exact Hd|split; [|now apply own]]].
    + intros ->. rewrite lenN_nil in M1. lia.
    + intros out Ho. specialize (R out Ho). unfold buffer_to_data in R. rewrite (so_zarr sok) in R. cbn [bind negb andb] in R.
      rewrite (prodw_small (prod_chunks_small ok)) in R. change (skipn (N.to_nat 0) e) with e in R.
      destruct (decompress (d_codec d) w e out (prod b)); cbn [bind] in R; congruence.
Qed.

(** ** Writing *)
Lemma shard_chunk_spec src off n coord C buf blobs c : 
  region_ok d off n -> source_ok w n src -> overlaps s b off n c -> shard_of cps c = coord ->
  any_buffer d buf -> shard_rel coord C blobs ->
  exists buf' blobs', shard_write_chunk sd src off n (buf, blobs) c = Ok (buf', blobs') /\ any_buffer d buf' /\
    prepared d off n c src (C c) buf' /\
    shard_rel coord (upd C c (if all_fill d buf' then None else Some buf')) blobs'.
Proof using sok m_total m_blob own. clear ownF FS.
  intros Hreg Hsrc Hov Hco Hbuf (R1 & R2 & R3). pose proof (overlaps_valid Hov) as Hc. pose proof (valid_len Hc) as Lc.
  destruct (slot_ok Lc) as [S1 S2]. destruct (R3 c Hc Hco) as (x & Gx & Bx).
  unfold shard_write_chunk. rewrite S1. cbn [bind]. rewrite Gx. cbn [bind].
  destruct (@prepare_spec d ok off n c src (shard_existing sd x) (C c) buf) as (buf' & E & P); auto.
  { destruct (C c) as [data|]; [|exact I]. unfold content_ok. rewrite stored_b. apply Bx. }
  { intros bf Hb. rewrite stored_b in Hb. unfold shard_existing. destruct (C c) as [data|]; cbn [blob_rel] in Bx.
    - destruct Bx as (B1 & B2 & B3 & _). destruct x as [|x0 x']; [congruence|]. destruct Hb as [Lb Fb].
      rewrite Lb. rewrite B3 by (split; auto). reflexivity.
    - subst x. reflexivity. }
  rewrite E. cbn [bind]. pose proof (proj1 P) as Pb. rewrite stored_b in Pb.
  destruct (make_blob_ok Hc Pb) as (o & Eo & O1 & O2). rewrite Eo. cbn [bind].
  rewrite setN_ok by lia. cbn [bind]. eexists _, _. split; [reflexivity|]. split; [eexists; exact Pb|]. split; [exact P|].
  set (x' := match o with Some b0 => b0 | None => [] end).
  assert (Hx' : lenN x' <= m /\ blob_rel c (if all_fill d buf' then None else Some buf') x').
  { unfold x'. destruct (all_fill d buf') eqn:Ef.
    - rewrite (O1 eq_refl). split; [rewrite lenN_nil; lia|reflexivity].
    - destruct (O2 eq_refl) as (e & -> & M & B). split; [exact M|exact B]. }
  split; [rewrite lenN_set_nth; exact R1|]. split.
  - apply Forall_forall. intros y Hy. apply In_nth_error in Hy as [k Hk].
    destruct (Nat.eq_dec (N.to_nat (slot_of c)) k) as [Ek|Nk].
    + subst k. rewrite set_nth_same in Hk by (unfold lenN in R1; lia). injection Hk as <-. apply Hx'.
    + rewrite set_nth_other in Hk by exact Nk. apply nth_error_In in Hk. rewrite Forall_forall in R2. now apply R2.
  - intros c' Hc' Hco'. destruct (list_eq_dec N.eq_dec c' c) as [->|Hn].
    + exists x'. split; [apply getN_set_same; lia|]. unfold upd. destruct (list_eq_dec N.eq_dec c c); [apply Hx'|congruence].
    + destruct (R3 c' Hc' Hco') as (y & Gy & By). exists y. split.
      * rewrite getN_set_other; [exact Gy|]. intros Es. apply Hn. apply slot_inj; auto using valid_len; congruence.
      * unfold upd. destruct (list_eq_dec N.eq_dec c' c); [congruence|exact By].
Qed.

Lemma shard_fold_spec src off n coord cs : region_ok d off n -> source_ok w n src ->
  (forall c, In c cs -> overlaps s b off n c /\ shard_of cps c = coord) -> NoDup cs ->
  forall buf blobs C, any_buffer d buf -> shard_rel coord C blobs ->
  exists buf' blobs' C', foldM (shard_write_chunk sd src off n) cs (buf, blobs) = Ok (buf', blobs') /\
    any_buffer d buf' /\ shard_rel coord C' blobs' /\ wrote d off n src cs C C'.
Proof using sok m_total m_blob own. clear ownF FS.
  intros Hreg Hsrc. induction cs as [|c cs IH]; intros HO ND buf blobs C Hbuf HR.
  - exists buf, blobs, C. cbn. repeat split; auto; try apply HR; intros; match goal with H : In _ [] |- _ => destruct H end.
  - inversion ND as [|? ? N1 N2]; subst. destruct (HO c (or_introl eq_refl)) as [Ho Hs].
    destruct (shard_chunk_spec Hreg Hsrc Ho Hs Hbuf HR) as (buf1 & blobs1 & E1 & B1 & P1 & R1).
    destruct (IH (fun c' H => HO c' (or_intror H)) N2 buf1 blobs1 _ B1 R1) as (buf2 & blobs2 & C2 & E2 & B2 & R2 & W2).
    exists buf2, blobs2, C2. split; [cbn [foldM]; rewrite E1; exact E2|]. split; [exact B2|]. split; [exact R2|].
    eapply wrote_cons; [exact N1| |exact W2]. apply (prepared_wrote ok); auto. eapply overlaps_valid, Ho.
Qed.

(** Contents that agree on a shard. *)
Lemma shard_rel_ext coord C C' blobs : (forall c, valid c -> shard_of cps c = coord -> C' c = C c) ->
  shard_rel coord C blobs -> shard_rel coord C' blobs.
Proof.
  intros H (R1 & R2 & R3). split; [exact R1|]. split; [exact R2|]. intros c Hc Hs. rewrite H by auto. now apply R3.
Qed.

Lemma write_blobs_ok st coord blobs : can_write (d_mode d) = true -> length coord = length b ->
  write_shard_blobs sd coord blobs st =
    (set_key st (chunk_key (d_key d) coord) (if all_slots_empty blobs then None else Some (build_shard blobs)), Ok tt).
Proof using sok m_total m_blob. clear own Q ownF FS.
  intros Hm L. destruct (shard_handle_ok L) as [bs E]. unfold write_shard_blobs. rewrite Hm. cbn [negb].
  unfold sbind, pure. rewrite E. cbn [ch_key]. destruct (all_slots_empty blobs); [reflexivity|]. now apply store_write_ok.
Qed.

(** The shards that are known to be intact. *)
Variable G : shape -> Prop.
Definition holds_sh (st : store) (C : shape -> option (list cell)) : Prop :=
  forall c, valid c -> G (shard_of cps c) -> exists blobs, shard_state st (shard_of cps c) blobs /\ shard_rel (shard_of cps c) C blobs.

(** Replacing one shard. *)
Lemma holds_replace st C C' coord blobs' : length coord = length b -> holds_sh st C -> shard_rel coord C' blobs' ->
  (forall c, shard_of cps c <> coord -> C' c = C c) ->
  holds_sh (set_key st (chunk_key (d_key d) coord) (if all_slots_empty blobs' then None else Some (build_shard blobs'))) C'.
Proof.
  intros L H R F c Hc HG. destruct (list_eq_dec N.eq_dec (shard_of cps c) coord) as [E|Hn].
  - exists blobs'. rewrite E. split; [|exact R]. destruct R as (R1 & R2 & _). apply built_state; auto. apply set_key_same.
  - destruct (H c Hc HG) as (blobs & (S1 & S2 & S3) & R'). exists blobs. split.
    + split; [exact S1|]. split; [exact S2|]. rewrite set_key_other; [exact S3|].
      intros Ek. apply Hn. now apply (key_inj ok).
    + eapply shard_rel_ext; [|exact R']. intros c' Hc' Hs. apply F. congruence.
Qed.

Lemma shard_unit_spec src off n coord cs buf st C : can_write (d_mode d) = true ->
  region_ok d off n -> source_ok w n src -> G coord -> cs <> [] ->
  (forall c, In c cs -> overlaps s b off n c /\ shard_of cps c = coord) -> NoDup cs ->
  any_buffer d buf -> holds_sh st C ->
  exists buf' v C', shard_write_unit sd src off n buf (coord, cs) st =
      (set_key st (chunk_key (d_key d) coord) v, Ok buf') /\
    any_buffer d buf' /\ holds_sh (set_key st (chunk_key (d_key d) coord) v) C' /\ wrote d off n src cs C C'.
Proof.
  intros Hm Hreg Hsrc HG NE HO ND Hbuf HC.
  assert (exists c0, In c0 cs) as [c0 H0] by (destruct cs as [|c0 cs']; [congruence|exists c0; cbn; auto]).
  destruct (HO c0 H0) as [Ho0 Hs0]. pose proof (overlaps_valid Ho0) as Hv0.
  assert (L : length coord = length b) by (rewrite <- Hs0; apply shard_of_len, valid_len, Hv0).
  destruct (HC c0 Hv0) as (blobs & S & R); [congruence|]. rewrite Hs0 in S, R.
  destruct (@shard_fold_spec src off n coord cs Hreg Hsrc HO ND buf blobs C Hbuf R) as (buf' & blobs' & C' & E & B' & R' & W).
  eexists buf', _, C'. split.
  { unfold shard_write_unit. cbn [fst snd]. unfold sbind, reading. rewrite (read_blobs_ok L S). cbn [bind]. rewrite E.
    cbn [fst snd]. rewrite write_blobs_ok by auto. unfold pure. reflexivity. }
  split; [exact B'|]. split; [|exact W].
  apply (@holds_replace st C C' coord blobs'); auto. intros c Hn. apply W. intros Hin. apply Hn, HO, Hin.
Qed.

Lemma wrote_app off n src l1 l2 C C1 C2 : (forall c, In c l1 -> ~ In c l2) ->
  wrote d off n src l1 C C1 -> wrote d off n src l2 C1 C2 -> wrote d off n src (l1 ++ l2) C C2.
Proof.
  intros Hd [A1 A2] [B1 B2]. split.
  - intros x Hx Hin. destruct (in_dec (list_eq_dec N.eq_dec) (chunk_of b x) l2) as [H2|H2].
    + specialize (B1 x Hx H2). unfold val in *. rewrite (A2 (chunk_of b x)) in B1; [exact B1|].
      intros H1. exact (Hd _ H1 H2).
    + apply in_app_iff in Hin as [Hin|]; [|contradiction]. unfold val in *. rewrite B2 by exact H2. now apply A1.
  - intros c Hn. rewrite B2, A2; auto; intros H; apply Hn; apply in_app_iff; auto.
Qed.

Lemma sharded_fold src off n g : can_write (d_mode d) = true ->
  region_ok d off n -> source_ok w n src ->
  (forall k cs, In (k, cs) g -> cs <> [] /\ forall c, In c cs -> overlaps s b off n c /\ shard_of cps c = k) ->
  (forall k cs, In (k, cs) g -> G k) ->
  NoDup (concat (map snd g)) ->
  forall buf st C, any_buffer d buf -> holds_sh st C ->
  exists buf' st' C', foldS (shard_write_unit sd src off n) g buf st = (st', Ok buf') /\ any_buffer d buf' /\
    holds_sh st' C' /\ wrote d off n src (concat (map snd g)) C C' /\
    (forall k, (forall c, In c (concat (map snd g)) -> k <> shard_key sd c) -> st' k = st k).
Proof.
  intros Hm Hreg Hsrc. induction g as [|[k cs] g IH]; intros HG HGood ND buf st C Hbuf HC.
  - exists buf, st, C. cbn. repeat split; auto; intros; match goal with H : In _ [] |- _ => destruct H end.
  - cbn [map snd concat] in *. destruct (HG k cs (or_introl eq_refl)) as [NE HO].
    assert (N1 : NoDup cs) by (revert ND; clear; induction cs; cbn; [constructor|]; inversion 1; subst; constructor; auto; rewrite in_app_iff in *; tauto).
    assert (N2 : NoDup (concat (map snd g))) by (revert ND; clear; induction cs; cbn; auto; inversion 1; auto).
    assert (ND12 : forall c, In c cs -> ~ In c (concat (map snd g))).
    { revert ND. clear. induction cs as [|a cs IH]; cbn; [tauto|]. inversion 1 as [|? ? X1 X2]; subst.
      intros c [->|Hin] Hc; [apply X1; apply in_app_iff; auto|eapply IH; eauto]. }
    destruct (@shard_unit_spec src off n k cs buf st C) as (buf1 & v & C1 & E1 & B1 & H1 & W1); auto.
    { apply (HGood k cs). cbn. auto. }
    destruct (IH (fun k' cs' H => HG k' cs' (or_intror H)) (fun k' cs' H => HGood k' cs' (or_intror H)) N2 buf1 _ C1 B1 H1)
      as (buf2 & st2 & C2 & E2 & B2 & H2 & W2 & F2).
    exists buf2, st2, C2. split; [cbn [foldS]; unfold sbind at 1; rewrite E1; exact E2|]. split; [exact B2|]. split; [exact H2|]. split.
    + eapply wrote_app; eauto.
    + intros k' Hk. rewrite F2 by (intros c Hin; apply Hk; apply in_app_iff; auto).
      apply set_key_other. destruct cs as [|c0 cs']; [congruence|].
      rewrite <- (proj2 (HO c0 (or_introl eq_refl))). apply Hk. cbn. auto.
Qed.

Lemma cps_ok : chunks_per_shard (sd_shard sd) b = Ok cps.
Proof. apply chunks_per_shard_ok; [apply (so_cps sok)|apply (chunks_pos ok)]. Qed.

Lemma groups_ok off n l : NoDup l -> (forall c, In c l <-> overlaps s b off n c) ->
  exists g, group_chunks cps l = Ok g /\
    (forall k cs, In (k, cs) g -> cs <> [] /\ forall c, In c cs -> overlaps s b off n c /\ shard_of cps c = k) /\
    NoDup (concat (map snd g)) /\ (forall c, In c (concat (map snd g)) <-> overlaps s b off n c) /\
    NoDup (map fst g).
Proof.
  intros ND HI. destruct (@group_chunks_spec cps l cps_pos) as (g & E & G1 & G2 & G3 & G4).
  { intros c Hin. rewrite cps_len. apply valid_len. eapply overlaps_valid, HI, Hin. }
  assert (HM : forall c, In c (concat (map snd g)) <-> overlaps s b off n c).
  { intros c. rewrite <- HI. split; apply Permutation_in; [exact G2|now apply Permutation_sym]. }
  exists g. split; [exact E|]. split; [|split; [|split; [exact HM|exact G1]]].
  - intros k cs Hin. split; [eapply G4, Hin|]. intros c Hc. split; [|eapply G3; eauto].
    apply HM. apply in_concat. exists cs. split; [|exact Hc]. apply in_map_iff. exists (k, cs). auto.
  - eapply Permutation_NoDup; [apply Permutation_sym, G2|exact ND].
Qed.

Lemma sh_write_request_spec src off n st C : can_write (d_mode d) = true ->
  region_ok d off n -> source_ok w n src -> (forall c, overlaps s b off n c -> G (shard_of cps c)) -> holds_sh st C ->
  exists st' C', sh_write_request sd src off n st = (st', Ok tt) /\ holds_sh st' C' /\
    (forall x, in_shape s x ->
       same_value d (val d C' x) (if in_boxb off n x then source_value src (vsub x off) else val d C x)) /\
    (forall k, (forall c, overlaps s b off n c -> k <> shard_key sd c) -> st' k = st k).
Proof.
  intros Hm Hreg Hsrc HGood HC. destruct (begin_request_ok ok Hreg) as (l & E & ND & _ & HI).
  destruct (@groups_ok off n l ND HI) as (g & Eg & G1 & G2 & G3 & G5).
  assert (G4 : forall k cs, In (k, cs) g -> G k).
  { intros k cs Hin. destruct (G1 _ _ Hin) as [NE HO]. destruct cs as [|c cs]; [congruence|].
    destruct (HO c (or_introl eq_refl)) as [Ho <-]. now apply HGood. }
  destruct (@sharded_fold src off n g Hm Hreg Hsrc G1 G4 G2 _ st C (fill_buffer ok) HC)
    as (buf' & st' & C' & E2 & _ & H' & [W1 W2] & F).
  exists st', C'. split.
  { unfold sh_write_request, write_sharded, sbind, pure. rewrite E, Hm. cbn [negb]. rewrite cps_ok, Eg, E2. reflexivity. }
  split; [exact H'|]. split.
  - intros x Hx. destruct (in_dec (list_eq_dec N.eq_dec) (chunk_of b x) (concat (map snd g))) as [Hin|Hn]; [now apply W1|].
    destruct (in_boxb off n x) eqn:Eb.
    + exfalso. apply Hn, G3. apply in_boxb_spec in Eb. exists x. split; [exact Eb|]. apply (elem_chunk ok), Hx.
    + unfold val. rewrite W2 by exact Hn. now left.
  - intros k Hk. apply F. intros c Hin. apply Hk, G3, Hin.
Qed.

(** Single chunks. *)
Lemma inner_blob_spec c o blob st C : can_write (d_mode d) = true -> valid c -> G (shard_of cps c) -> holds_sh st C ->
  lenN (match blob with Some e => e | None => [] end) <= m ->
  blob_rel c o (match blob with Some e => e | None => [] end) ->
  exists v, write_inner_blob sd c blob st = (set_key st (shard_key sd c) v, Ok tt) /\
    holds_sh (set_key st (shard_key sd c) v) (upd C c o).
Proof.
  intros Hm Hc HGood HC Hl Hb. pose proof (valid_len Hc) as Lc. destruct (HC c Hc HGood) as (blobs & S & R).
  destruct (slot_ok Lc) as [S1 S2]. pose proof R as (R1 & R2 & R3).
  assert (Lco : length (shard_of cps c) = length b) by now apply shard_of_len.
  unfold write_inner_blob, sbind, pure, reading.
  rewrite shard_id_spec by (auto using cps_pos; rewrite cps_len; exact Lc). rewrite S1.
  rewrite (read_blobs_ok Lco S). rewrite setN_ok by lia.
  rewrite write_blobs_ok by auto. eexists. split; [reflexivity|].
  set (x' := match blob with Some e => e | None => [] end) in *.
  apply (@holds_replace st C); auto.
  - split; [rewrite lenN_set_nth; exact R1|]. split.
    + apply Forall_forall. intros y Hy. apply In_nth_error in Hy as [k Hk].
      destruct (Nat.eq_dec (N.to_nat (slot_of c)) k) as [Ek|Nk].
      * subst k. rewrite set_nth_same in Hk by (unfold lenN in R1; lia). injection Hk as <-. exact Hl.
      * rewrite set_nth_other in Hk by exact Nk. apply nth_error_In in Hk. rewrite Forall_forall in R2. now apply R2.
    + intros c' Hc' Hco'. destruct (list_eq_dec N.eq_dec c' c) as [->|Hn].
      * exists x'. split; [apply getN_set_same; lia|]. unfold upd. destruct (list_eq_dec N.eq_dec c c); [exact Hb|congruence].
      * destruct (R3 c' Hc' Hco') as (y & Gy & By). exists y. split.
        -- rewrite getN_set_other; [exact Gy|]. intros Es. apply Hn. apply slot_inj; auto using valid_len; congruence.
        -- unfold upd. destruct (list_eq_dec N.eq_dec c' c); [congruence|exact By].
  - intros c' Hn. unfold upd. destruct (list_eq_dec N.eq_dec c' c); [congruence|reflexivity].
Qed.

Lemma sh_write_chunk_spec c data st C : can_write (d_mode d) = true -> valid c -> buffer_of w (prod b) data ->
  G (shard_of cps c) -> holds_sh st C ->
  exists v, sh_write_chunk sd c data false st = (set_key st (shard_key sd c) v, Ok tt) /\
    holds_sh (set_key st (shard_key sd c) v) (upd C c (if all_fill d data then None else Some data)).
Proof.
  intros Hm Hc Hd HGood HC. destruct (make_blob_ok Hc Hd) as (o & Eo & O1 & O2).
  unfold sh_write_chunk. rewrite Hm. cbn [negb]. unfold sbind at 1, pure at 1. rewrite (handle_ok ok Hc).
  unfold sbind at 1, pure at 1. destruct (blocking_ok ok) as (bl & Eb & HB). rewrite Eb. cbn [ch_ids].
  rewrite (proj2 (HB c) Hc). cbn [negb]. unfold sbind at 1, pure at 1. rewrite Eo.
  apply inner_blob_spec; auto; destruct (all_fill d data).
  - rewrite (O1 eq_refl). rewrite lenN_nil. lia.
  - destruct (O2 eq_refl) as (e & -> & M & B). exact M.
  - rewrite (O1 eq_refl). reflexivity.
  - destruct (O2 eq_refl) as (e & -> & M & B). exact B.
Qed.

Lemma sh_remove_spec c st C : can_write (d_mode d) = true -> valid c -> G (shard_of cps c) -> holds_sh st C ->
  exists v, sh_remove_chunk sd c st = (set_key st (shard_key sd c) v, Ok tt) /\
    holds_sh (set_key st (shard_key sd c) v) (upd C c None).
Proof.
  intros Hm Hc HGood HC. unfold sh_remove_chunk. apply inner_blob_spec; auto; [rewrite lenN_nil; lia|reflexivity].
Qed.

Lemma run_sharded_op_spec o st C a : (forall k, G k) -> can_write (d_mode d) = true -> array_op_ok d o ->
  holds_sh st C -> represents d C a ->
  exists st' C', run_sharded_op sd o st = (st', Ok tt) /\ holds_sh st' C' /\ represents d C' (apply_op d o a) /\
    (forall k, (forall c, valid c -> k <> shard_key sd c) -> st' k = st k).
Proof.
  intros HGood Hm Hok HC Ha. destruct o as [off n src|c data|c]; cbn [run_sharded_op array_op_ok] in *.
  - destruct Hok as [Hreg Hsrc]. destruct (sh_write_request_spec Hm Hreg Hsrc (fun c _ => HGood _) HC) as (st' & C' & E & H' & V & F).
    exists st', C'. repeat split; auto.
    + intros x Hx. unfold apply_op. eapply same_value_trans; [apply V, Hx|].
      destruct (in_boxb off n x); [now left|apply Ha, Hx].
    + intros k Hk. apply F. intros c Hov. apply Hk. eapply overlaps_valid, Hov.
  - destruct Hok as [Hc Hd]. rewrite stored_b in Hd. destruct (sh_write_chunk_spec Hm Hc Hd (HGood _) HC) as (v & W & HW).
    eexists _, _. split; [exact W|]. split; [exact HW|]. split.
    + intros x Hx. unfold apply_op, val, upd.
      destruct (list_eq_dec N.eq_dec (chunk_of b x) c) as [E|Hn]; [|apply Ha, Hx].
      rewrite E. destruct (all_fill d data) eqn:Ef; cbn [chunk_val]; [|now left].
      apply same_fill. unfold all_fill in Ef. rewrite forallb_forall in Ef. apply Ef.
      pose proof (elem_stored ok Hx) as Hp. rewrite E in Hp. apply rowmajor_lt in Hp. destruct Hd as [Ld _].
      rewrite stored_b in Hp |- *. rewrite <- Ld in Hp. apply cell_at_getN, getN_ok, nth_error_In in Hp. exact Hp.
    + intros k Hk. apply set_key_other. now apply Hk.
  - destruct (sh_remove_spec Hm Hok (HGood _) HC) as (v & W & HW). eexists _, _. split; [exact W|]. split; [exact HW|]. split.
    + intros x Hx. unfold apply_op, val, upd.
      destruct (list_eq_dec N.eq_dec (chunk_of b x) c) as [E|Hn]; [|apply Ha, Hx]. now left.
    + intros k Hk. apply set_key_other. now apply Hk.
Qed.

Lemma run_sharded_ops_spec ops : (forall k, G k) -> can_write (d_mode d) = true -> Forall (array_op_ok d) ops ->
  forall st C a, holds_sh st C -> represents d C a ->
  exists st' C', run_sharded_ops sd ops st = (st', Ok tt) /\ holds_sh st' C' /\ represents d C' (apply_ops d ops a) /\
    (forall k, (forall c, valid c -> k <> shard_key sd c) -> st' k = st k).
Proof.
  intros HGood Hm. unfold run_sharded_ops. induction 1 as [|o ops Ho Hops IH]; intros st C a HC Ha.
  - exists st, C. cbn. auto.
  - destruct (run_sharded_op_spec HGood Hm Ho HC Ha) as (st1 & C1 & E1 & H1 & R1 & F1).
    destruct (IH st1 C1 _ H1 R1) as (st2 & C2 & E2 & H2 & R2 & F2).
    exists st2, C2. split; [cbn [foldS]; unfold sbind at 1; rewrite E1; exact E2|].
    split; [exact H2|]. split; [exact R2|]. intros k Hk. rewrite F2, F1; auto.
Qed.

Lemma holds_sh_empty st : (forall c, valid c -> st (shard_key sd c) = None) -> holds_sh st (fun _ => None).
Proof using sok m_total m_blob own ownF.
  intros H c Hc _. exists (repeat [] (N.to_nat (prod cps))).
  assert (L : lenN (repeat (@nil N) (N.to_nat (prod cps))) = prod cps) by (rewrite lenN_repeat; lia).
  assert (F : Forall (fun x : bytes => lenN x <= m) (repeat [] (N.to_nat (prod cps)))).
  { apply Forall_forall. intros x Hx. apply repeat_spec in Hx. subst x. rewrite lenN_nil. lia. }
  split; [|split; [exact L|split; [exact F|]]].
  - split; [exact L|]. split; [exact F|].
    assert (all_slots_empty (repeat [] (N.to_nat (prod cps))) = true) as ->.
    { apply forallb_forall. intros x Hx. apply repeat_spec in Hx. subst x. reflexivity. }
    specialize (H c Hc). unfold shard_key in H. now rewrite H.
  - intros c' Hc' _. destruct (slot_ok (valid_len Hc')) as [_ Hs].
    destruct (@getN_in _ (repeat (@nil N) (N.to_nat (prod cps))) (slot_of c')) as [x Gx]; [lia|].
    exists x. split; [exact Gx|]. cbn. apply getN_ok, nth_error_In, repeat_spec in Gx. exact Gx.
Qed.

(** ** Reading *)
Lemma sh_read_chunk_unit raw ov off buf out c C blobs : region_ok d off (v_shape ov) ->
  out_view_ok ov (lenN out) -> overlaps s b off (v_shape ov) c -> any_buffer d buf ->
  shard_rel (shard_of cps c) C blobs ->
  (forall i x, getN blobs i = Ok x ->
      match x with
      | [] => raw_slot raw i = Ok None
      | _ => exists bs o n, raw_slot raw i = Ok (Some (bs, (o, n))) /\ read_bytes bs o n = Ok x
      end) ->
  exists buf' out', shard_read_chunk sd raw ov off (v_shape ov) (buf, out) c = Ok (buf', out') /\
    any_buffer d buf' /\ read_done d ov off C [c] out out'.
Proof.
  intros Hreg Hov Hovl Hbuf (R1 & R2 & R3) HR. pose proof (overlaps_valid Hovl) as Hc. pose proof (valid_len Hc) as Lc.
  destruct (coords_in_roi_exact (do_dims ok) (proj1 Hreg) (proj2 Hreg) Hovl) as (r & Er & R).
  destruct (slot_ok Lc) as [S1 S2]. destruct (R3 c Hc eq_refl) as (x & Gx & Bx). specialize (HR _ _ Gx).
  unfold shard_read_chunk. rewrite S1. cbn [bind]. rewrite Er. cbn [bind].
  change (match raw with None => Ok None | Some (b0, tbl) => let! e := getN tbl (slot_of c) in if snd e =? 0 then Ok None else Ok (Some (b0, e)) end)
    with (raw_slot raw (slot_of c)).
  destruct (C c) as [data|] eqn:EC; cbn [blob_rel] in Bx.
  - destruct Bx as (B1 & B2 & B3 & _). destruct x as [|x0 x']; [congruence|].
    destruct HR as (bs & o & nb & -> & Erb). cbn [bind]. rewrite Erb. cbn [bind].
    rewrite (prodw_small (prod_chunks_small ok)).
    assert (Hb1 : buffer_of w (prod b) (if lenN buf =? prod b then buf else resize w (prod b) buf)).
    { rewrite N.eqb_sym. apply sized_buffer. exact Hbuf. }
    rewrite (B3 _ Hb1). cbn [bind].
    assert (HL : lenN data = prod (stored_shape d c)) by (rewrite stored_b; apply B2).
    destruct (out_copy ok Hreg Hov Hc R HL) as (out' & E & L & A & O). rewrite stored_b in E. rewrite E. cbn [bind].
    exists data, out'. split; [reflexivity|]. split; [eexists; exact B2|]. split; [exact L|]. split.
    + intros i Hi [Ei|[]]. rewrite A by auto. unfold val. rewrite <- Ei, EC. reflexivity.
    + intros a Ha. apply O. intros i Hi Ei. apply Ha; [exact Hi|left; auto].
  - subst x. rewrite HR. cbn [bind].
    destruct (out_fill ok (d_fill d) Hreg Hov Hc R) as (out' & E & L & A & O). rewrite E. cbn [bind].
    exists buf, out'. split; [reflexivity|]. split; [exact Hbuf|]. split; [exact L|]. split.
    + intros i Hi [Ei|[]]. rewrite A by auto. unfold val. rewrite <- Ei, EC. reflexivity.
    + intros a Ha. apply O. intros i Hi Ei. apply Ha; [exact Hi|left; auto].
Qed.

Lemma read_done_app ov off C l1 l2 out out1 out2 : out_view_ok ov (lenN out) ->
  read_done d ov off C l1 out out1 -> read_done d ov off C l2 out1 out2 -> read_done d ov off C (l1 ++ l2) out out2.
Proof.
  intros (V1 & V2 & V3) (A1 & A2 & A3) (B1 & B2 & B3). split; [lia|]. split.
  - intros i Hi H. destruct (in_dec (list_eq_dec N.eq_dec) (chunk_of b (vadd off i)) l2) as [Hin|Hn]; [now apply B2|].
    apply in_app_iff in H as [H|H]; [|contradiction]. rewrite B3.
    + apply A2; cbn; auto.
    + intros j Hj Hjl Eq. unfold out_addr in Eq. assert (i = j) by (apply V3; auto; lia). subst j. contradiction.
  - intros a Ha. rewrite B3, A3; auto; intros i Hi H; apply Ha; auto; apply in_app_iff; auto.
Qed.

Lemma sh_read_fold ov off C cs coord blobs raw : region_ok d off (v_shape ov) ->
  shard_rel coord C blobs ->
  (forall i x, getN blobs i = Ok x ->
      match x with
      | [] => raw_slot raw i = Ok None
      | _ => exists bs o n, raw_slot raw i = Ok (Some (bs, (o, n))) /\ read_bytes bs o n = Ok x
      end) ->
  (forall c, In c cs -> overlaps s b off (v_shape ov) c /\ shard_of cps c = coord) ->
  forall buf out, out_view_ok ov (lenN out) -> any_buffer d buf ->
  exists buf' out', foldM (shard_read_chunk sd raw ov off (v_shape ov)) cs (buf, out) = Ok (buf', out') /\
    any_buffer d buf' /\ read_done d ov off C cs out out'.
Proof.
  intros Hreg HR Hraw. induction cs as [|c cs IH]; intros HO buf out Hov Hbuf.
  - exists buf, out. split; [reflexivity|]. split; [exact Hbuf|]. split; [reflexivity|]. split; [intros i _ []|reflexivity].
  - destruct (HO c (or_introl eq_refl)) as [Ho Hs].
    destruct (@sh_read_chunk_unit raw ov off buf out c C blobs) as (buf1 & out1 & E1 & B1 & D1); auto.
    { rewrite Hs. exact HR. }
    destruct (IH (fun c' H => HO c' (or_intror H)) buf1 out1) as (buf2 & out2 & E2 & B2 & D2).
    { destruct D1 as [-> _]. exact Hov. } { exact B1. }
    exists buf2, out2. split; [cbn [foldM]; rewrite E1; exact E2|]. split; [exact B2|].
    change (c :: cs) with ([c] ++ cs). eapply read_done_app; eauto.
Qed.

Lemma sh_read_groups ov off st C g : region_ok d off (v_shape ov) -> holds_sh st C ->
  (forall k cs, In (k, cs) g -> G k) ->
  (forall k cs, In (k, cs) g -> cs <> [] /\ forall c, In c cs -> overlaps s b off (v_shape ov) c /\ shard_of cps c = k) ->
  forall buf out, out_view_ok ov (lenN out) -> any_buffer d buf ->
  exists buf' out', foldM (shard_read_unit sd st ov off (v_shape ov)) g (buf, out) = Ok (buf', out') /\
    any_buffer d buf' /\ read_done d ov off C (concat (map snd g)) out out'.
Proof using sok m_total m_blob own ownF.
  intros Hreg HC. induction g as [|[k cs] g IH]; intros HGood HG buf out Hov Hbuf.
  - exists buf, out. split; [reflexivity|]. split; [exact Hbuf|]. split; [reflexivity|]. split; [intros i _ []|reflexivity].
  - destruct (HG k cs (or_introl eq_refl)) as [NE HO].
    assert (exists c0, In c0 cs) as [c0 H0] by (destruct cs as [|c0 cs']; [congruence|exists c0; cbn; auto]).
    destruct (HO c0 H0) as [Ho0 Hs0]. pose proof (overlaps_valid Ho0) as Hv0.
    assert (L : length k = length b) by (rewrite <- Hs0; apply shard_of_len, valid_len, Hv0).
    destruct (HC c0 Hv0) as (blobs & S & R); [rewrite Hs0; apply (HGood k cs); cbn; auto|]. rewrite Hs0 in S, R.
    destruct (read_raw_ok L S) as (raw & Eraw & Hraw).
    destruct (@sh_read_fold ov off C cs k blobs raw Hreg R Hraw HO buf out Hov Hbuf) as (buf1 & out1 & E1 & B1 & D1).
    destruct (IH (fun k' cs' H => HGood k' cs' (or_intror H)) (fun k' cs' H => HG k' cs' (or_intror H)) buf1 out1) as (buf2 & out2 & E2 & B2 & D2).
    { destruct D1 as [-> _]. exact Hov. } { exact B1. }
    exists buf2, out2. split.
    { cbn [foldM]. unfold shard_read_unit at 1. cbn [fst snd]. rewrite Eraw. cbn [bind]. rewrite E1. cbn [bind]. exact E2. }
    split; [exact B2|]. cbn [map snd concat]. eapply read_done_app; eauto.
Qed.

Lemma sh_read_subarray_spec ov off st C out : region_ok d off (v_shape ov) ->
  (forall c, overlaps s b off (v_shape ov) c -> G (shard_of cps c)) -> holds_sh st C ->
  out_view_ok ov (lenN out) ->
  exists out', sh_read_subarray sd st ov off out = Ok out' /\ lenN out' = lenN out /\
    (forall i, in_shape (v_shape ov) i -> getN out' (out_addr ov i) = Ok (val d C (vadd off i))) /\
    (forall a, (forall i, in_shape (v_shape ov) i -> a <> out_addr ov i) -> getN out' a = getN out a).
Proof using sok m_total m_blob own ownF.
  intros Hreg HGood HC Hov. destruct (begin_request_ok ok Hreg) as (l & E & ND & _ & HI).
  destruct (@groups_ok off (v_shape ov) l ND HI) as (g & Eg & G1 & G2 & G3 & G5).
  assert (G4 : forall k cs, In (k, cs) g -> G k).
  { intros k cs Hin. destruct (G1 _ _ Hin) as [NE HO]. destruct cs as [|c cs]; [congruence|].
    destruct (HO c (or_introl eq_refl)) as [Ho <-]. now apply HGood. }
  destruct (@sh_read_groups ov off st C g Hreg HC G4 G1
     (repeat (zero_cell w) (N.to_nat (prodw b))) out Hov) as (buf' & out' & E2 & _ & L & A & O).
  { eexists. split; [reflexivity|]. apply Forall_forall. intros e He. apply repeat_spec in He. subst e.
    unfold zero_cell. split; [unfold lenN; rewrite repeat_length; lia|].
    apply Forall_forall. intros x Hx. apply repeat_spec in Hx. subst x. unfold is_byte. lia. }
  exists out'. split; [|split; [exact L|split]].
  - unfold sh_read_subarray. rewrite E. cbn [bind]. rewrite cps_ok. cbn [bind]. rewrite Eg. cbn [bind]. rewrite E2. reflexivity.
  - intros i Hi. apply A; [exact Hi|]. apply G3. exists (vadd off i).
    destruct Hreg as [Hr _]. pose proof (in_shape_len Hi).
    assert (length off = length (v_shape ov)) by (unfold valid_region in Hr; apply all3_length in Hr; lia).
    assert (Hb : in_box off (v_shape ov) (vadd off i)) by (apply sub_in_box; auto).
    split; [exact Hb|]. apply (elem_chunk ok). eapply region_in_shape; eauto.
  - intros a Ha. apply O. intros i Hi _. now apply Ha.
Qed.

Lemma val_cell_sh st C x : G (shard_of cps (chunk_of b x)) -> holds_sh st C -> in_shape s x ->
  lenN (val d C x) = w /\ Forall is_byte (val d C x).
Proof.
  intros HGood HC Hx. destruct (elem_chunk ok Hx) as (Hv & _). unfold val.
  apply (chunk_val_ok ok); auto; [|now apply elem_stored].
  destruct (HC _ Hv HGood) as (blobs & _ & _ & _ & R3). destruct (R3 _ Hv eq_refl) as (y & _ & By).
  destruct (C (chunk_of b x)) as [data|]; [|exact I]. unfold content_ok. rewrite stored_b. apply By.
Qed.
End WithSharded.

(** The bytes that this library stores. *)
Definition own_blob (sd : sharded) (e : bytes) (data : list cell) : Prop :=
  stored_as (d_codec (sd_base sd)) (concat data) e.
Lemma own_blob_ok sd data e :
  buffer_of (t_width (d_type (sd_base sd))) (prod (d_chunks (sd_base sd))) data ->
  stored_as (d_codec (sd_base sd)) (concat data) e -> own_blob sd e data.
Proof. intros _ H. exact H. Qed.
Definition own_shard (file : bytes) (blobs : list bytes) : Prop := file = build_shard blobs.
Lemma own_shard_ok sd blobs : lenN blobs = prod (sd_cps sd) -> lenN (concat blobs) < W64 - 1 -> own_shard (build_shard blobs) blobs.
Proof. intros _ _. reflexivity. Qed.
(** Sub-array I/O of sharded datasets refines an n-dimensional array. *)
Theorem sharded_theorem sd ops st : sharded_ok sd -> can_write (d_mode (sd_base sd)) = true ->
  Forall (array_op_ok (sd_base sd)) ops ->
  (forall c, valid_chunk (d_shape (sd_base sd)) (d_chunks (sd_base sd)) c -> st (shard_key sd c) = None) ->
  exists st', run_sharded_ops sd ops st = (st', Ok tt) /\
    (forall ov off out, region_ok (sd_base sd) off (v_shape ov) -> out_view_ok ov (lenN out) ->
      exists out', sh_read_subarray sd st' ov off out = Ok out' /\ lenN out' = lenN out /\
        (forall i, in_shape (v_shape ov) i -> exists v,
           getN out' (v_off ov + lin (v_strides ov) i) = Ok v /\
           same_value (sd_base sd) v (apply_ops (sd_base sd) ops (fun _ => d_fill (sd_base sd)) (vadd off i)) /\
           (t_float (d_type (sd_base sd)) = false ->
              v = apply_ops (sd_base sd) ops (fun _ => d_fill (sd_base sd)) (vadd off i))) /\
        (forall a, (forall i, in_shape (v_shape ov) i -> a <> v_off ov + lin (v_strides ov) i) ->
           getN out' a = getN out a)) /\
    (forall k, (forall c, valid_chunk (d_shape (sd_base sd)) (d_chunks (sd_base sd)) c -> k <> shard_key sd c) ->
       st' k = st k).
Proof.
  intros sok Hm Hops Hst. destruct (so_blob sok) as (m & M1 & M2). pose proof (so_base sok) as ok.
  set (G := fun _ : shape => True). assert (HG : forall k, G k) by (intros; exact I).
  destruct (@run_sharded_ops_spec sd sok m M1 M2 (own_blob sd) (@own_blob_ok sd) own_shard (@own_shard_ok sd) G ops HG Hm Hops st _ _ (@holds_sh_empty sd sok m M1 M2 (own_blob sd) (@own_blob_ok sd) own_shard (@own_shard_ok sd) G st Hst) (@represents_empty (sd_base sd)))
    as (st' & C' & E & HC & HR & F).
  exists st'. split; [exact E|]. split; [|exact F].
  intros ov off out Hreg Hov. destruct (@sh_read_subarray_spec sd sok m M1 M2 (own_blob sd) (@own_blob_ok sd) own_shard (@own_shard_ok sd) G ov off st' C' out Hreg (fun c _ => HG _) HC Hov) as (out' & E2 & L & A & O).
  exists out'. split; [exact E2|]. split; [exact L|]. split; [|exact O].
  intros i Hi. exists (val (sd_base sd) C' (vadd off i)). split; [now apply A|].
  assert (Hx : in_shape (d_shape (sd_base sd)) (vadd off i)).
  { eapply region_in_shape; [apply Hreg|]. apply sub_in_box; [|exact Hi].
    destruct Hreg as [Hr _]. unfold valid_region in Hr; apply all3_length in Hr; lia. }
  split; [now apply HR|]. intros Hf.
  destruct (@val_cell_sh sd sok m (own_blob sd) own_shard G st' C' _ (HG _) HC Hx) as [V1 V2].
  destruct (@apply_ops_cells (sd_base sd) ok ops Hops (fun _ => d_fill (sd_base sd)) (fun _ _ => do_fill ok) _ Hx) as [A1 A2].
  eapply same_value_int; eauto.
Qed.
