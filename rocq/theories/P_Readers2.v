(** Readers of a sharded dataset that another client changes. *)
From Coq Require Import String.
From Verif Require Import M_Base M_Text M_Key M_Blocking M_View M_Bytes M_N5Header M_Format
  M_Mode M_Shard M_Dataset M_Sharded M_Access M_Pool M_Parallel M_Lock M_Clients M_RemoveCrash
  S_Array S_Grid S_Bytes S_Text S_Format S_Shard S_Dataset S_Sharded S_Access S_File S_Pool S_Parallel S_Lock S_Clients S_Readers
  P_Base P_Blocking P_Roi P_View P_Bytes P_Key P_Format P_Shard P_Dataset P_Access P_Read P_History P_Sharded P_ShardedApi P_File P_Pool
  P_Foreach P_Parallel P_ParWrite P_ParSharded P_ParHistory P_Lock P_Clients P_Clients2 P_Readers.
Import List ListNotations.
Local Open Scope list_scope.
Local Open Scope N_scope.
Local Notation length := List.length.

Section Sharded.
Variable sd : sharded.
Hypothesis sok : sharded_ok sd.
Hypothesis Hw : can_write (d_mode (sd_base sd)) = true.
Variable m : N.
Notation d := (sd_base sd).
Notation w := (t_width (d_type (sd_base sd))).
Notation s := (d_shape (sd_base sd)).
Notation b := (d_chunks (sd_base sd)).
Notation cps := (sd_cps sd).
Notation valid := (valid_chunk (d_shape (sd_base sd)) (d_chunks (sd_base sd))).
Notation ok := (so_base sok).
Notation key := (chunk_key (d_key (sd_base sd))).
Hypothesis m_total : prod (sd_cps sd) * m < W64 - 1.
Hypothesis m_blob : forall data, buffer_of (t_width (d_type (sd_base sd))) (prod (d_chunks (sd_base sd))) data ->
      forall e, stored_as (d_codec (sd_base sd)) (concat data) e -> 0 < lenN e /\ lenN e <= m.
Notation all_shards := (fun _ : shape => True).
Notation holds_all := (holds_sh sd m (own_blob sd) own_shard all_shards).

Lemma groups_facts off n : region_ok d off n ->
  (let! reqs := begin_request d off n in
   let! cps' := chunks_per_shard (sd_shard sd) b in
   group_chunks cps' reqs) = Ok (groups_of sd off n) /\
  (forall k cs, In (k, cs) (groups_of sd off n) -> cs <> [] /\ forall c, In c cs -> overlaps s b off n c /\ shard_of cps c = k) /\
  (forall g, In g (groups_of sd off n) -> length (fst g) = length b) /\
  NoDup (map (fun g => key (fst g)) (groups_of sd off n)).
Proof using sok.
  intros Hr. destruct (groups_are sok Hr) as (_ & E & HG). split; [exact E|].
  destruct (request_groups sok Hr) as (reqs & g & E1 & E2 & E3 & G1 & _ & _ & ND).
  rewrite E1 in E. cbn [bind] in E. rewrite E2 in E. cbn [bind] in E. rewrite E3 in E. injection E as ->.
  split; [exact G1|]. split; [intros g' Hg; now destruct (HG g' Hg)|].
  rewrite <- (map_map fst key). apply FinFun.Injective_map_NoDup; [|exact ND].
  intros k k' Ek. now apply (key_inj ok).
Qed.

Lemma touches_blobs coord blobs o : length coord = length b -> touches (key coord) (write_blobs_code sd coord blobs (Ret o)).
Proof using sok.
  intros L. unfold write_blobs_code. destruct (negb _); [apply touches_ret|].
  destruct (shard_handle_ok sok L) as [bs ->]. cbn [plet ch_key].
  destruct (all_slots_empty _); [apply touches_erase|apply touches_write].
Qed.
Lemma touches_unit src off n g bf : length (fst g) = length b -> touches (key (fst g)) (shard_write_unit_code sd src off n g bf).
Proof using sok.
  intros L. unfold shard_write_unit_code. apply touches_plet. intros h _. apply touches_pread. intros v.
  apply touches_plet. intros r _. now apply touches_blobs.
Qed.
Lemma touches_inner c blob : valid c -> touches (key (shard_of cps c)) (inner_blob_code sd c blob).
Proof using sok.
  intros Hc. pose proof (shard_of_len sok (valid_len Hc)) as LK. unfold inner_blob_code.
  apply touches_plet. intros k Ek.
  rewrite (@shard_id_spec c _ (cps_pos sok)) in Ek by (rewrite (cps_len sok); now apply valid_len). injection Ek as <-.
  apply touches_plet. intros sl _. apply touches_plet. intros h _. apply touches_pread. intros f.
  apply touches_plet. intros bls _. apply touches_plet. intros bls' _. now apply touches_blobs.
Qed.
Lemma reads_shards size raw ov off n cs : forall bf, reads_once [] (shard_read_code sd size raw ov off n cs bf).
Proof using.
  induction cs as [|c cs IH]; intros bf; cbn [shard_read_code]; [constructor|].
  apply reads_once_plet. intros sl _. apply reads_once_plet. intros r _. apply reads_once_plet. intros [[bs [p nb]]|] _.
  - apply reads_once_plet. intros bf2 _. now apply reads_once_pcopy.
  - now apply reads_once_pfill.
Qed.
Lemma reads_call ov off out : region_ok d off (v_shape ov) ->
  reads_once (map (fun g => key (fst g)) (groups_of sd off (v_shape ov))) (cb_code (sh_read_call sd ov off out)).
Proof using sok.
  intros Hreg. destruct (groups_facts Hreg) as (E & _ & HL & _). cbn [sh_read_call cb_code]. rewrite E. cbn [plet].
  apply (@reads_once_batch _ (fun g => key (fst g))). intros g bf Hg. unfold shard_read_unit_code.
  destruct (shard_handle_ok sok (HL g Hg)) as [bs ->]. cbn [plet ch_key]. apply reads_once_pread. intros f.
  apply reads_once_plet. intros raw _. apply reads_shards.
Qed.

(** Files while a call is under way. *)
Lemma call_files c m0 m' : client_call_ok d c -> halted (cb_code (sharded_body sd c)) m0 m' -> forall k,
  fst m' k = fst m0 k \/ (fst m' k = Some [] /\ In k (spw sd c)) \/
  fst m' k = fst (fst (run (cb_code (sharded_body sd c)) m0)) k.
Proof using sok Hw.
  intros Hc H k.
  assert (ONE : forall key0 p, touches key0 p -> In key0 (spw sd c) -> cb_code (sharded_body sd c) = p ->
    fst m' k = fst m0 k \/ (fst m' k = Some [] /\ In k (spw sd c)) \/
    fst m' k = fst (fst (run (cb_code (sharded_body sd c)) m0)) k).
  { intros key0 p T Hi E. rewrite E in *. destruct (T _ _ H) as [F V].
    destruct (string_dec k key0) as [->|Hk]; [|left; now apply F]. destruct V as [V|[V|V]]; auto. }
  destruct c as [ov off out|[off n src|c data|c]]; cbn [client_call_ok array_op_ok sharded_body array_call_code] in *.
  - destruct Hc as [Hreg _]. left. pose proof (reads_call out Hreg) as R.
    revert R H. generalize (cb_code (sh_read_call sd ov off out)) as p.
    generalize (map (fun g => key (fst g)) (groups_of sd off (v_shape ov))) as ks. clear.
    intros ks p R H. revert ks R. induction H as [p mm|f mm m' H IH]; intros ks R; [reflexivity|].
    destruct (reads_once_step R Logic.eq_refl mm) as [E [ks' R']]. rewrite (IH _ R'). now rewrite E.
  - destruct Hc as [Hreg Hsrc]. destruct (groups_facts Hreg) as (E & _ & HL & ND).
    unfold sh_write_request_code in *. rewrite Hw in *. cbn [negb] in *. rewrite E in *. cbn [unguarded no_output cb_code] in *.
    destruct (@touches_batch _ (fun g => key (fst g)) (fun g bf => shard_write_unit_code sd src off n g bf) (groups_of sd off n)) with
      (b := repeat (d_fill d) (N.to_nat (prodw b))) (m := m0) (m' := m') (k := k) as [F V]; auto.
    { intros u bf Hu. apply touches_unit. now apply HL. }
    destruct (in_dec string_dec k (map (fun g => key (fst g)) (groups_of sd off n))) as [Hi|Hn]; [|left; now apply F].
    destruct V as [V|[V|V]]; auto.
  - destruct Hc as [Hv Hd]. destruct (sh_write_chunk_code sd c data false) as [o|p|p] eqn:E; cbn [unguarded no_output cb_code] in *.
    + left. destruct o; inversion H; subst; reflexivity.
    + apply (ONE (key (shard_of cps c)) p); [|now left|reflexivity].
      unfold sh_write_chunk_code in E. destruct (if negb _ then _ else _); discriminate E.
    + apply (ONE (key (shard_of cps c)) p); [|now left|reflexivity].
      unfold sh_write_chunk_code in E. destruct (if negb _ then _ else _) as [blob|e|]; try discriminate E. injection E as <-.
      now apply touches_inner.
  - apply (ONE (key (shard_of cps c)) (inner_blob_code sd c None)); [now apply touches_inner|now left|reflexivity].
Qed.

(** An empty file is no shard. *)
Lemma empty_bad st k : st (key k) = Some [] -> bad sd st k.
Proof using.
  intros E. exists []. split; [exact E|]. unfold parse_shard_index. change (lenN (@nil N)) with 0.
  destruct (N.ltb_spec 0 (16 * prod cps + 4)) as [_|H]; [reflexivity|]. exfalso. clear - H. lia.
Qed.

Definition same_file (x y : option bytes) : bool :=
  match x, y with
  | None, None => true
  | Some u, Some v => if list_eq_dec N.eq_dec u v then true else false
  | _, _ => false
  end.
Lemma same_file_ok x y : same_file x y = true <-> x = y.
Proof using.
  destruct x as [u|], y as [v|]; cbn; try (split; congruence). destruct (list_eq_dec _ u v); split; congruence.
Qed.

(** The first of the moments from [lo] to [hi] at which a shard had the contents it has
    in [mu]. *)
Definition moment_of (base : nat -> store) (lo hi : nat) (mu : store) (k : shape) : nat :=
  match find (fun j => same_file (mu (key k)) (base j (key k))) (seq lo (S hi - lo)) with Some j => j | None => lo end.
Lemma moment_range base lo hi mu k : (lo <= hi)%nat -> (lo <= moment_of base lo hi mu k <= hi)%nat.
Proof using. clear m_blob m_total m.
  intros H. unfold moment_of. destruct (find _ _) as [j|] eqn:E; [|lia]. apply find_some in E as [E _]. apply in_seq in E. lia.
Qed.
Lemma moment_same base lo hi mu k : (exists j, (lo <= j <= hi)%nat /\ mu (key k) = base j (key k)) ->
  mu (key k) = base (moment_of base lo hi mu k) (key k).
Proof using. clear m_blob m_total m.
  intros (j & Hj & E). unfold moment_of. destruct (find _ _) as [i|] eqn:F.
  - apply find_some in F as [_ F]. now apply same_file_ok.
  - exfalso. assert (X := find_none _ _ F j). cbn beta in X. rewrite in_seq in X. rewrite E in X.
    rewrite (proj2 (same_file_ok _ _) Logic.eq_refl) in X. specialize (X ltac:(lia)). discriminate.
Qed.

Lemma choose_upto (P : nat -> (shape -> option (list cell)) -> Prop) n : (forall j, exists C, P j C) ->
  exists F, forall j, (j <= n)%nat -> P j (F j).
Proof using. clear sd sok Hw m m_total m_blob.
  intros H. induction n as [|n [F HF]].
  - destruct (H 0%nat) as [C HC]. exists (fun _ => C). intros j Hj. now replace j with 0%nat by lia.
  - destruct (H (S n)) as [C HC]. exists (fun j => if Nat.eqb j (S n) then C else F j).
    intros j Hj. destruct (Nat.eqb_spec j (S n)) as [->|Hn]; [exact HC|]. apply HF. lia.
Qed.

Theorem sharded_reader_m pre st00 st0 calls wr cs y1 y2 t ov off out rest r : Forall (array_op_ok d) pre ->
  (forall c, valid c -> st00 (shard_key sd c) = None) -> run_sharded_ops sd pre st00 = (st0, Ok tt) ->
  Forall (Forall (client_call_ok d)) calls -> nth_error calls wr = Some cs ->
  (forall t' cs', t' <> wr -> nth_error calls t' = Some cs' -> Forall read_only cs') ->
  reach (clients_step (sharded_body sd)) (clients_init st0 calls) y1 -> t <> wr ->
  nth_error (k_clients y1) t = Some (KIdle, KRead ov off out :: rest) ->
  reach (clients_step (sharded_body sd)) y1 y2 ->
  nth_error (answers_to t (k_log y2)) (length (answers_to t (k_log y1))) = Some r ->
  let a0 := apply_ops d pre (fun _ => d_fill d) in
  let lo := length (calls_by wr (k_log y1)) in
  let hi := length (calls_by wr (k_log y2)) in
  (exists moment out', r = Ok out' /\ (forall k, (lo <= moment k <= S hi)%nat) /\
     shows_region d (patchwork sd cs a0 moment) ov off out out') \/
  (r = Throw ERuntime /\ exists j c x z, (lo <= j <= hi)%nat /\ nth_error cs j = Some c /\ changes d c x /\
     overlaps s b off (v_shape ov) z /\ shard_of cps x = shard_of cps z).
Proof using sok Hw m_total m_blob.
  intros Hpre He Er HG Hcs Hro R1 Ht E1 R2 Ha a0 lo hi.
  destruct (@run_sharded_ops_spec sd sok m m_total m_blob (own_blob sd) (@own_blob_ok sd) own_shard (@own_shard_ok sd) all_shards
    pre (fun _ => Logic.I) Hw Hpre st00 (fun _ => None) (fun _ => d_fill d)
    (@holds_sh_empty sd sok m m_total m_blob (own_blob sd) (@own_blob_ok sd) own_shard (@own_shard_ok sd) all_shards st00 He)
    (@represents_empty d)) as (st1 & C1 & EE & HC & HR & _).
  rewrite Er in EE. injection EE as <-. fold a0 in HR.
  assert (HC0 : cells d a0) by exact (@apply_ops_cells d ok pre Hpre _ (fun _ _ => do_fill ok)).
  assert (Gcs : Forall (client_call_ok d) cs).
  { rewrite Forall_forall in HG. apply HG. now apply nth_error_In in Hcs. }
  set (good := fun c => client_call_ok d c /\ read_only c).
  assert (OTH : forall t' cs', t' <> wr -> nth_error calls t' = Some cs' -> Forall good cs').
  { intros t' cs' Hn E. pose proof (Hro t' cs' Hn E) as F. rewrite Forall_forall in HG, F |- *.
    intros c Hc. split; [|now apply F]. apply nth_error_In in E. specialize (HG _ E). rewrite Forall_forall in HG. now apply HG. }
  assert (GRO : forall c, good c -> exists ks, reads_once ks (cb_code (sharded_body sd c))).
  { intros [ov' off' out'|o] [G1 G2]; [|destruct G2]. eexists. apply reads_call. apply G1. }
  destruct (@reader_sees _ (sharded_body sd) st0 calls wr cs good (fun p => exists ks, reads_once ks p) Hcs OTH
    (fun f m '(ex_intro _ ks H) => reads_once_step H Logic.eq_refl m) GRO y1 y2 t (KRead ov off out) rest r R1 Ht E1 R2 Ha)
    as ([[Hreg Hov] _] & r0 & o & -> & SEEN).
  set (base := base (sharded_body sd) st0 cs) in *.
  unfold count in SEEN. fold lo hi in SEEN.
  assert (Hlh : (lo <= hi)%nat).
  { unfold lo, hi. clear - R2. induction R2 as [|y y' _ IH H]; [lia|]. pose proof (count_step wr H). unfold count in *. lia. }
  (* the contents after each call *)
  destruct (@choose_upto (fun j C => holds_all (base j) C /\ represents d C (apply_ops d (ops_of (firstn j cs)) a0)) (S hi)) as [F HF].
  { intros j. assert (Fj : Forall (client_call_ok d) (firstn j cs)).
    { rewrite Forall_forall in Gcs |- *. intros c Hc. apply Gcs. rewrite <- (firstn_skipn j cs). apply in_or_app. now left. }
    destruct (@alone_spec d ok (sharded_body sd) (run_sharded_op sd) (sh_read_subarray sd) holds_all
      (fun st C x HC Hx => @val_cell_sh sd sok m (own_blob sd) own_shard all_shards st C x Logic.I HC Hx)
      (@sharded_op sd sok Hw m m_total m_blob) (@sharded_read sd sok m m_total m_blob) (firstn j cs) Fj st0 C1 a0 HC HR HC0)
      as (_ & C & X1 & X2 & _). exists C. split; [exact X1|exact X2]. }
  assert (CELLS : forall j, cells d (apply_ops d (ops_of (firstn j cs)) a0)).
  { intros j. assert (Fj : Forall (client_call_ok d) (firstn j cs)).
    { rewrite Forall_forall in Gcs |- *. intros c Hc. apply Gcs. rewrite <- (firstn_skipn j cs). apply in_or_app. now left. }
    destruct (@alone_spec d ok (sharded_body sd) (run_sharded_op sd) (sh_read_subarray sd) holds_all
      (fun st C x HC Hx => @val_cell_sh sd sok m (own_blob sd) own_shard all_shards st C x Logic.I HC Hx)
      (@sharded_op sd sok Hw m m_total m_blob) (@sharded_read sd sok m m_total m_blob) (firstn j cs) Fj st0 C1 a0 HC HR HC0)
      as (_ & C & _ & _ & X). exact X. }
  (* one directory *)
  cbn [sharded_body] in SEEN. destruct (groups_facts Hreg) as (Eg & GO & GL & GN).
  destruct (seen_mixed (reads_call out Hreg) GN SEEN (base lo)) as (mu & M1 & M2 & RUN).
  set (inw := fun k => exists j, (lo <= j <= S hi)%nat /\ mu k = base j k).
  assert (KEYS : forall k, inw k \/ (mu k = Some [] /\ exists j c, (lo <= j <= hi)%nat /\ nth_error cs j = Some c /\ In k (spw sd c))).
  { intros k. destruct (M1 k) as [E|(st & (j & Hj & P) & E)]; [left; exists lo; split; [lia|exact E]|].
    destruct P as [->|(c & m' & Nc & Hh & ->)]; [left; exists j; split; [lia|exact E]|].
    assert (Gc : client_call_ok d c).
    { rewrite Forall_forall in Gcs. apply Gcs. now apply nth_error_In in Nc. }
    destruct (@call_files c _ _ Gc Hh k) as [V|[[V Hi]|V]]; cbn [fst] in V.
    - left. exists j. split; [lia|]. now rewrite E, V.
    - right. split; [now rewrite E|]. exists j, c. auto.
    - left. exists (S j). split; [lia|]. rewrite E, V. unfold base. now rewrite (base_S _ _ Nc). }
  set (moment := moment_of base lo (S hi) mu).
  set (Cmix := fun c => F (moment (shard_of cps c)) c).
  set (GD := fun k : shape => inw (key k)).
  assert (HM : holds_sh sd m (own_blob sd) own_shard GD mu Cmix).
  { intros c Hc Hg. assert (Hj : (moment (shard_of cps c) <= S hi)%nat) by (apply moment_range; lia).
    destruct (HF _ Hj) as [HFc _]. destruct (HFc c Hc Logic.I) as (blobs & (S1 & S2 & S3) & (Q1 & Q2 & Q3)).
    exists blobs. split.
    - split; [exact S1|]. split; [exact S2|]. unfold moment in S3. rewrite <- (moment_same Hg) in S3. exact S3.
    - split; [exact Q1|]. split; [exact Q2|]. intros c' Hc' Ec'. unfold Cmix. rewrite Ec'. now apply Q3. }
  assert (GB : forall g, In g (groups_of sd off (v_shape ov)) -> GD (fst g) \/
    (mu (key (fst g)) = Some [] /\ exists j c, (lo <= j <= hi)%nat /\ nth_error cs j = Some c /\ In (key (fst g)) (spw sd c))).
  { intros g _. apply KEYS. }
  assert (DEC : (forall g, In g (groups_of sd off (v_shape ov)) -> GD (fst g)) \/
    exists g, In g (groups_of sd off (v_shape ov)) /\ mu (key (fst g)) = Some [] /\
      exists j c, (lo <= j <= hi)%nat /\ nth_error cs j = Some c /\ In (key (fst g)) (spw sd c)).
  { clear - GB. induction (groups_of sd off (v_shape ov)) as [|g l IH]; [left; intros g []|].
    destruct IH as [IH|(g' & Hg' & X)]; [intros; apply GB; now right| |right; exists g'; split; [now right|exact X]].
    destruct (GB g (or_introl eq_refl)) as [X|X]; [|right; exists g; split; [now left|exact X]].
    left. intros g' [<- |Hg']; auto. }
  destruct DEC as [ALL|(g & Hg & Hempty & j & c & Hj & Nc & Hin)].
  - left. exists moment.
    assert (HALL : holds_all mu Cmix).
    { intros c Hc _. apply HM; [exact Hc|].
      destruct (in_dec string_dec (key (shard_of cps c)) (map (fun g => key (fst g)) (groups_of sd off (v_shape ov)))) as [Hi|Hn].
      - apply in_map_iff in Hi as (g & Ek & Hg). unfold GD. rewrite <- Ek. now apply ALL.
      - exists lo. split; [lia|]. now apply M2. }
    destruct (@sharded_read sd sok m m_total m_blob ov off out mu Cmix Hreg Hov HALL) as (out' & EC & _ & L & V & FR).
    unfold call_alone in EC. cbn [sharded_body sh_read_call cb_size cb_out] in EC, RUN. cbn [sharded_body] in EC.
    cbn [sh_read_call cb_code cb_out cb_size] in EC, RUN. rewrite RUN in EC. cbn [fst snd] in EC. injection EC as EC.
    exists out'. split; [exact EC|]. split; [intros k; apply moment_range; lia|].
    apply (@region_shown d ok holds_all
      (fun st C x HC Hx => @val_cell_sh sd sok m (own_blob sd) own_shard all_shards st C x Logic.I HC Hx)
      ov off out out' mu Cmix); auto.
    + intros x Hx. unfold patchwork. assert (Hj : (moment (shard_of cps (chunk_of b x)) <= S hi)%nat) by (apply moment_range; lia).
      destruct (HF _ Hj) as [_ HRj]. exact (HRj x Hx).
    + intros x Hx. unfold patchwork. now apply CELLS.
  - right. split.
    + assert (TH : foldM (shard_read_unit sd mu ov off (v_shape ov)) (groups_of sd off (v_shape ov))
        (repeat (zero_cell w) (N.to_nat (prodw b)), out) = Throw ERuntime).
      { apply (@read_fails sd sok m m_total m_blob GD ov off mu Cmix); auto.
        - intros k cs' Hk. destruct (GB (k, cs') Hk) as [X|[X _]]; [now left|right; now apply empty_bad].
        - exists (fst g), (snd g). split; [now destruct g|now apply empty_bad].
        - eexists. split; [reflexivity|]. apply Forall_forall. intros e He'. apply repeat_spec in He'. subst e.
          unfold zero_cell. split; [unfold lenN; rewrite repeat_length; lia|].
          apply Forall_forall. intros x Hx. apply repeat_spec in Hx. subst x. unfold is_byte. lia. }
      pose proof (@run_shard_fold sd sok ov off mu (groups_of sd off (v_shape ov)) Hreg (proj1 Hov)
        (fun g Hg => conj (GL g Hg) (proj2 (GO (fst g) (snd g) ltac:(now destruct g)))) out (array_of out)
        (repeat (zero_cell w) (N.to_nat (prodw b))) (@lists_array_of out)) as RF.
      rewrite TH in RF. cbn [sh_read_call cb_code cb_out cb_size] in RUN |- *. rewrite Eg in RUN. cbn [plet] in RUN.
      unfold foreach_sequential in RUN. rewrite RUN in RF. cbn [snd] in RF. rewrite RF. reflexivity.
    + destruct (GO (fst g) (snd g) ltac:(now destruct g)) as [NE HO]. destruct (snd g) as [|z zs]; [congruence|].
      destruct (HO z (or_introl eq_refl)) as [Hz Ez].
      assert (Gc : client_call_ok d c).
      { rewrite Forall_forall in Gcs. apply Gcs. now apply nth_error_In in Nc. }
      destruct (@spw_ok sd sok c _ Gc Hin) as (x & Hx & Ek). apply (key_inj ok) in Ek.
      exists j, c, x, z. split; [exact Hj|]. split; [exact Nc|]. split; [exact Hx|]. split; [exact Hz|]. congruence.
Qed.
End Sharded.

Theorem sharded_reader sd pre st00 st0 calls wr cs y1 y2 t ov off out rest r : sharded_ok sd ->
  can_write (d_mode (sd_base sd)) = true -> Forall (array_op_ok (sd_base sd)) pre ->
  (forall c, valid_chunk (d_shape (sd_base sd)) (d_chunks (sd_base sd)) c -> st00 (shard_key sd c) = None) ->
  run_sharded_ops sd pre st00 = (st0, Ok tt) ->
  Forall (Forall (client_call_ok (sd_base sd))) calls -> nth_error calls wr = Some cs ->
  (forall t' cs', t' <> wr -> nth_error calls t' = Some cs' -> Forall read_only cs') ->
  reach (clients_step (sharded_body sd)) (clients_init st0 calls) y1 -> t <> wr ->
  nth_error (k_clients y1) t = Some (KIdle, KRead ov off out :: rest) ->
  reach (clients_step (sharded_body sd)) y1 y2 ->
  nth_error (answers_to t (k_log y2)) (length (answers_to t (k_log y1))) = Some r ->
  let a0 := apply_ops (sd_base sd) pre (fun _ => d_fill (sd_base sd)) in
  let lo := length (calls_by wr (k_log y1)) in
  let hi := length (calls_by wr (k_log y2)) in
  (exists moment out', r = Ok out' /\ (forall k, (lo <= moment k <= S hi)%nat) /\
     shows_region (sd_base sd) (patchwork sd cs a0 moment) ov off out out') \/
  (r = Throw ERuntime /\ exists j c x z, (lo <= j <= hi)%nat /\ nth_error cs j = Some c /\ changes (sd_base sd) c x /\
     overlaps (d_shape (sd_base sd)) (d_chunks (sd_base sd)) off (v_shape ov) z /\ shard_of (sd_cps sd) x = shard_of (sd_cps sd) z).
Proof.
  intros sok Hw. destruct (so_blob sok) as (m & M1 & M2).
  exact (@sharded_reader_m sd sok Hw m M1 M2 pre st00 st0 calls wr cs y1 y2 t ov off out rest r).
Qed.
