(** An array in an object store after its writer was stopped. *)
From Coq Require Import String.
From Verif Require Import M_Base M_Text M_Key M_Blocking M_View M_Bytes M_N5Header M_Format
  M_Mode M_Shard M_Dataset M_Sharded M_Access M_Pool M_Parallel M_Lock M_Clients M_S3Clients M_RemoveCrash
  S_Array S_Grid S_Bytes S_Text S_Format S_Shard S_Dataset S_Sharded S_Access S_File S_Pool S_Parallel S_Lock S_Clients S_Readers
  S_S3Clients
  P_Base P_Blocking P_Roi P_View P_Bytes P_Key P_Format P_Shard P_Dataset P_Access P_Read P_History P_Sharded P_ShardedApi P_File P_Pool
  P_Foreach P_Parallel P_ParWrite P_ParSharded P_ParHistory P_Lock P_Clients P_Clients2 P_Readers P_Readers2 P_Readers3 P_S3Clients.
Import List ListNotations.
Local Open Scope list_scope.
Local Open Scope N_scope.
Local Notation length := List.length.

Section Plain.
Variable d : dataset.
Hypothesis ok : dataset_ok d.
Hypothesis Hw : can_write (d_mode d) = true.
Notation w := (t_width (d_type d)).
Notation s := (d_shape d).
Notation b := (d_chunks d).
Notation valid := (valid_chunk (d_shape d) (d_chunks d)).
Notation key := (chunk_key (d_key d)).

Theorem s3_stopped pre st00 st0 calls wr cs y : Forall (array_op_ok d) pre ->
  (forall c, valid c -> st00 (key c) = None) -> run_array_ops d pre st00 = (st0, Ok tt) ->
  Forall (Forall (client_call_ok d)) calls -> nth_error calls wr = Some cs ->
  (forall t' cs', t' <> wr -> nth_error calls t' = Some cs' -> Forall read_only cs') ->
  reach (clients_step (s3_body d)) (clients_init st0 calls) y ->
  let a0 := apply_ops d pre (fun _ => d_fill d) in
  let n := length (calls_by wr (k_log y)) in
  exists moment, (forall c, (n <= moment c <= S n)%nat) /\
    (forall rest, nth_error (k_clients y) wr = Some (KIdle, rest) -> forall c, moment c = n) /\
    forall post, Forall (array_op_ok d) post ->
      exists st', run_array_ops d post (k_files y) = (st', Ok tt) /\
        forall ov off out, region_ok d off (v_shape ov) -> out_view_ok ov (lenN out) ->
          exists out', read_subarray d st' ov off out = Ok out' /\
            shows_region d (apply_ops d post (chunk_patchwork d cs a0 moment)) ov off out out'.
Proof using ok Hw.
  intros Hpre He Er HG Hcs Hro R a0 n.
  destruct (run_array_ops_spec ok Hw Hpre (holds_empty He) (@represents_empty d)) as (st1 & C1 & EE & HC & HR & _).
  rewrite Er in EE. injection EE as <-. fold a0 in HR.
  assert (HC0 : cells d a0) by exact (@apply_ops_cells d ok pre Hpre _ (fun _ _ => do_fill ok)).
  assert (Gcs : Forall (client_call_ok d) cs).
  { rewrite Forall_forall in HG. apply HG. now apply nth_error_In in Hcs. }
  set (good := fun c => client_call_ok d c /\ read_only c).
  assert (OTH : forall t' cs', t' <> wr -> nth_error calls t' = Some cs' -> Forall good cs').
  { intros t' cs' Hn E. pose proof (Hro t' cs' Hn E) as F. rewrite Forall_forall in HG, F |- *.
    intros c Hc. split; [|now apply F]. apply nth_error_In in E. specialize (HG _ E). rewrite Forall_forall in HG. now apply HG. }
  assert (GRO : forall c, good c -> harmless (cb_code (s3_body d c))).
  { intros [ov' off' out'|o] [G1 G2]; [|destruct G2]. eapply looks_harmless. apply (@looks_call d ok). apply G1. }
  assert (RSTEP : forall f m, harmless (Act f) -> fst (fst (f m)) = fst m /\ harmless (snd (f m))).
  { intros f m H. inversion H; subst. auto. }
  pose proof (@winv_reach _ (s3_body d) st0 calls wr cs good harmless Hcs OTH RSTEP GRO y R) as (_ & INV & _).
  set (base := base (s3_body d) st0 cs) in *. unfold count in INV. fold n in INV.
  assert (PRE : forall j, Forall (client_call_ok d) (firstn j cs)).
  { intros j. rewrite Forall_forall in Gcs |- *. intros c Hc. apply Gcs. rewrite <- (firstn_skipn j cs). apply in_or_app. now left. }
  pose proof (fun j => @alone_spec d ok (s3_body d) (run_array_op d) (read_subarray d) (holds d) (@val_cell d ok)
    (@s3_op d ok Hw) (@s3_read d ok) (firstn j cs) (PRE j) st0 C1 a0 HC HR HC0) as AL.
  destruct (@choose_all (fun j C => holds d (base j) C /\ represents d C (apply_ops d (ops_of (firstn j cs)) a0)) (S n)) as [F HF].
  { intros j. destruct (AL j) as (_ & C & X1 & X2 & _). exists C. split; [exact X1|exact X2]. }
  assert (CELLS : forall j, cells d (apply_ops d (ops_of (firstn j cs)) a0)).
  { intros j. destruct (AL j) as (_ & C & _ & _ & X). exact X. }
  assert (MOM : exists moment, (forall c, (n <= moment c <= S n)%nat) /\
    (forall rest, nth_error (k_clients y) wr = Some (KIdle, rest) -> forall c, moment c = n) /\
    forall c, k_files y (key c) = base (moment c) (key c)).
  { destruct INV as [[_ EF]|(c & out & p & E1 & Nc & P)].
    - exists (fun _ => n). split; [lia|]. split; [reflexivity|]. intros c. now rewrite EF.
    - exists (chunk_moment d base n (S n) (k_files y)).
      split; [intros x; apply chunk_moment_range; lia|]. split; [intros rest E; rewrite E1 in E; discriminate|].
      intros x. apply chunk_moment_same.
      assert (Gc : client_call_ok d c) by (rewrite Forall_forall in Gcs; apply Gcs; now apply nth_error_In in Nc).
      destruct (@s3_call_files d ok Hw c _ _ Gc (partway_halted P) (key x)) as [_ [V|V]]; cbn [fst] in V.
      + exists n. split; [lia|exact V].
      + exists (S n). split; [lia|]. rewrite V. unfold base. now rewrite (base_S _ _ Nc). }
  destruct MOM as (moment & RANGE & IDLE & SAME). exists moment. split; [exact RANGE|]. split; [exact IDLE|].
  intros post Hpost.
  assert (H1 : holds d (k_files y) (fun c => F (moment c) c)).
  { intros c Hc. destruct (HF (moment c) ltac:(apply RANGE)) as [HCj _]. exact (@holds_at d _ _ c _ (SAME c) (HCj c Hc)). }
  assert (H2 : represents d (fun c => F (moment c) c) (chunk_patchwork d cs a0 moment)).
  { intros x Hx. unfold chunk_patchwork. destruct (HF (moment (chunk_of b x)) ltac:(apply RANGE)) as [_ HRj]. exact (HRj x Hx). }
  assert (H3 : cells d (chunk_patchwork d cs a0 moment)) by (intros x Hx; unfold chunk_patchwork; now apply CELLS).
  destruct (run_array_ops_spec ok Hw Hpost H1 H2) as (st' & C' & E' & HC' & HR' & _).
  exists st'. split; [exact E'|]. intros ov off out Hreg Hov.
  destruct (@s3_read d ok ov off out st' C' Hreg Hov HC') as (out' & _ & Er' & L & V & FR).
  exists out'. split; [exact Er'|].
  apply (@region_shown d ok (holds d) (@val_cell d ok) ov off out out' st' C'); auto.
  exact (@apply_ops_cells d ok post Hpost _ H3).
Qed.
End Plain.

Section Sharded.
Variable sd : sharded.
Hypothesis sok : sharded_ok sd.
Hypothesis Hw : can_write (d_mode (sd_base sd)) = true.
Variable m : N.
Notation d := (sd_base sd).
Notation w := (t_width (d_type (sd_base sd))).
Notation s := (d_shape (sd_base sd)).
Notation b := (d_chunks (sd_base sd)).
Notation cps := (sd_cps sd).
Notation valid := (valid_chunk (d_shape (sd_base sd)) (d_chunks (sd_base sd))).
Notation ok := (so_base sok).
Notation key := (chunk_key (d_key (sd_base sd))).
Hypothesis m_total : prod (sd_cps sd) * m < W64 - 1.
Hypothesis m_blob : forall data, buffer_of (t_width (d_type (sd_base sd))) (prod (d_chunks (sd_base sd))) data ->
      forall e, stored_as (d_codec (sd_base sd)) (concat data) e -> 0 < lenN e /\ lenN e <= m.
Notation all_shards := (fun _ : shape => True).
Notation holds_all := (holds_sh sd m (own_blob sd) own_shard all_shards).

Lemma s3_sharded_stopped_m pre st00 st0 calls wr cs y : Forall (array_op_ok d) pre ->
  (forall c, valid c -> st00 (shard_key sd c) = None) -> run_sharded_ops sd pre st00 = (st0, Ok tt) ->
  Forall (Forall (client_call_ok d)) calls -> nth_error calls wr = Some cs ->
  (forall t' cs', t' <> wr -> nth_error calls t' = Some cs' -> Forall read_only cs') ->
  reach (clients_step (s3_sharded_body sd)) (clients_init st0 calls) y ->
  let a0 := apply_ops d pre (fun _ => d_fill d) in
  let n := length (calls_by wr (k_log y)) in
  exists moment, (forall k, (n <= moment k <= S n)%nat) /\
    (forall rest, nth_error (k_clients y) wr = Some (KIdle, rest) -> forall k, moment k = n) /\
    forall post, Forall (array_op_ok d) post ->
      exists st', run_sharded_ops sd post (k_files y) = (st', Ok tt) /\
        forall ov off out, region_ok d off (v_shape ov) -> out_view_ok ov (lenN out) ->
          exists out', sh_read_subarray sd st' ov off out = Ok out' /\
            shows_region d (apply_ops d post (patchwork sd cs a0 moment)) ov off out out'.
Proof using sok Hw m_total m_blob.
  intros Hpre He Er HG Hcs Hro R a0 n.
  destruct (@run_sharded_ops_spec sd sok m m_total m_blob (own_blob sd) (@own_blob_ok sd) own_shard (@own_shard_ok sd) all_shards
    pre (fun _ => Logic.I) Hw Hpre st00 (fun _ => None) (fun _ => d_fill d)
    (@holds_sh_empty sd sok m m_total m_blob (own_blob sd) (@own_blob_ok sd) own_shard (@own_shard_ok sd) all_shards st00 He)
    (@represents_empty d)) as (st1 & C1 & EE & HC & HR & _).
  rewrite Er in EE. injection EE as <-. fold a0 in HR.
  assert (HC0 : cells d a0) by exact (@apply_ops_cells d ok pre Hpre _ (fun _ _ => do_fill ok)).
  assert (Gcs : Forall (client_call_ok d) cs).
  { rewrite Forall_forall in HG. apply HG. now apply nth_error_In in Hcs. }
  set (good := fun c => client_call_ok d c /\ read_only c).
  assert (OTH : forall t' cs', t' <> wr -> nth_error calls t' = Some cs' -> Forall good cs').
  { intros t' cs' Hn E. pose proof (Hro t' cs' Hn E) as F. rewrite Forall_forall in HG, F |- *.
    intros c Hc. split; [|now apply F]. apply nth_error_In in E. specialize (HG _ E). rewrite Forall_forall in HG. now apply HG. }
  assert (GRO : forall c, good c -> exists ks, reads_once ks (cb_code (s3_sharded_body sd c))).
  { intros [ov' off' out'|o] [G1 G2]; [|destruct G2]. eexists. apply (@reads_call sd sok). apply G1. }
  pose proof (@winv_reach _ (s3_sharded_body sd) st0 calls wr cs good (fun p => exists ks, reads_once ks p) Hcs OTH
    (fun f m '(ex_intro _ ks H) => reads_once_step H Logic.eq_refl m) GRO y R) as (_ & INV & _).
  set (base := base (s3_sharded_body sd) st0 cs) in *. unfold count in INV. fold n in INV.
  assert (PRE : forall j, Forall (client_call_ok d) (firstn j cs)).
  { intros j. rewrite Forall_forall in Gcs |- *. intros c Hc. apply Gcs. rewrite <- (firstn_skipn j cs). apply in_or_app. now left. }
  pose proof (fun j => @alone_spec d ok (s3_sharded_body sd) (run_sharded_op sd) (sh_read_subarray sd) holds_all
      (fun st C x HC Hx => @val_cell_sh sd sok m (own_blob sd) own_shard all_shards st C x Logic.I HC Hx)
      (@s3_sharded_op sd sok Hw m m_total m_blob) (@s3_sharded_read sd sok m m_total m_blob)
      (firstn j cs) (PRE j) st0 C1 a0 HC HR HC0) as AL.
  destruct (@choose_upto (fun j C => holds_all (base j) C /\ represents d C (apply_ops d (ops_of (firstn j cs)) a0)) (S n)) as [F HF].
  { intros j. destruct (AL j) as (_ & C & X1 & X2 & _). exists C. split; [exact X1|exact X2]. }
  assert (CELLS : forall j, cells d (apply_ops d (ops_of (firstn j cs)) a0)).
  { intros j. destruct (AL j) as (_ & C & _ & _ & X). exact X. }
  assert (MOM : exists moment, (forall k, (n <= moment k <= S n)%nat) /\
    (forall rest, nth_error (k_clients y) wr = Some (KIdle, rest) -> forall k, moment k = n) /\
    forall k, k_files y (key k) = base (moment k) (key k)).
  { destruct INV as [[_ EF]|(c & out & p & E1 & Nc & P)].
    - exists (fun _ => n). split; [lia|]. split; [reflexivity|]. intros c. now rewrite EF.
    - exists (moment_of sd base n (S n) (k_files y)).
      split; [intros x; apply moment_range; lia|]. split; [intros rest E; rewrite E1 in E; discriminate|].
      intros x. apply moment_same.
      assert (Gc : client_call_ok d c) by (rewrite Forall_forall in Gcs; apply Gcs; now apply nth_error_In in Nc).
      destruct (@s3_sh_call_files sd sok Hw c _ _ Gc (partway_halted P) (key x)) as [V|V]; cbn [fst] in V.
      + exists n. split; [lia|exact V].
      + exists (S n). split; [lia|]. rewrite V. unfold base. now rewrite (base_S _ _ Nc). }
  destruct MOM as (moment & RANGE & IDLE & SAME). exists moment. split; [exact RANGE|]. split; [exact IDLE|].
  intros post Hpost.
  set (Cmix := fun c => F (moment (shard_of cps c)) c).
  assert (H1 : holds_all (k_files y) Cmix).
  { intros c Hc _. destruct (HF _ (proj2 (RANGE (shard_of cps c)))) as [HFc _].
    destruct (HFc c Hc Logic.I) as (blobs & (S1 & S2 & S3) & (Q1 & Q2 & Q3)).
    exists blobs. split.
    - split; [exact S1|]. split; [exact S2|]. rewrite <- SAME in S3. exact S3.
    - split; [exact Q1|]. split; [exact Q2|]. intros c' Hc' Ec'. unfold Cmix. rewrite Ec'. now apply Q3. }
  assert (H2 : represents d Cmix (patchwork sd cs a0 moment)).
  { intros x Hx. unfold patchwork. destruct (HF _ (proj2 (RANGE (shard_of cps (chunk_of b x))))) as [_ HRj]. exact (HRj x Hx). }
  assert (H3 : cells d (patchwork sd cs a0 moment)) by (intros x Hx; unfold patchwork; now apply CELLS).
  destruct (@run_sharded_ops_spec sd sok m m_total m_blob (own_blob sd) (@own_blob_ok sd) own_shard (@own_shard_ok sd) all_shards
    post (fun _ => Logic.I) Hw Hpost (k_files y) Cmix _ H1 H2) as (st' & C' & E' & HC' & HR' & _).
  exists st'. split; [exact E'|]. intros ov off out Hreg Hov.
  destruct (@s3_sharded_read sd sok m m_total m_blob ov off out st' C' Hreg Hov HC') as (out' & _ & Er' & L & V & FR).
  exists out'. split; [exact Er'|].
  apply (@region_shown d ok holds_all
    (fun st C x HC Hx => @val_cell_sh sd sok m (own_blob sd) own_shard all_shards st C x Logic.I HC Hx)
    ov off out out' st' C'); auto.
  exact (@apply_ops_cells d ok post Hpost _ H3).
Qed.
End Sharded.

Theorem s3_sharded_stopped sd pre st00 st0 calls wr cs y : sharded_ok sd -> can_write (d_mode (sd_base sd)) = true ->
  Forall (array_op_ok (sd_base sd)) pre ->
  (forall c, valid_chunk (d_shape (sd_base sd)) (d_chunks (sd_base sd)) c -> st00 (shard_key sd c) = None) ->
  run_sharded_ops sd pre st00 = (st0, Ok tt) ->
  Forall (Forall (client_call_ok (sd_base sd))) calls -> nth_error calls wr = Some cs ->
  (forall t' cs', t' <> wr -> nth_error calls t' = Some cs' -> Forall read_only cs') ->
  reach (clients_step (s3_sharded_body sd)) (clients_init st0 calls) y ->
  let a0 := apply_ops (sd_base sd) pre (fun _ => d_fill (sd_base sd)) in
  let n := length (calls_by wr (k_log y)) in
  exists moment, (forall k, (n <= moment k <= S n)%nat) /\
    (forall rest, nth_error (k_clients y) wr = Some (KIdle, rest) -> forall k, moment k = n) /\
    forall post, Forall (array_op_ok (sd_base sd)) post ->
      exists st', run_sharded_ops sd post (k_files y) = (st', Ok tt) /\
        forall ov off out, region_ok (sd_base sd) off (v_shape ov) -> out_view_ok ov (lenN out) ->
          exists out', sh_read_subarray sd st' ov off out = Ok out' /\
            shows_region (sd_base sd) (apply_ops (sd_base sd) post (patchwork sd cs a0 moment)) ov off out out'.
Proof.
  intros sok Hw. destruct (so_blob sok) as (m & M1 & M2).
  exact (@s3_sharded_stopped_m sd sok Hw m M1 M2 pre st00 st0 calls wr cs y).
Qed.

(** ** Repeating the call that was interrupted *)
Lemma apply_op_at d o a a' x : a x = a' x -> apply_op d o a x = apply_op d o a' x.
Proof. intros E. destruct o; cbn; rewrite E; reflexivity. Qed.
Lemma apply_ops_at d ops : forall a a' x, a x = a' x -> apply_ops d ops a x = apply_ops d ops a' x.
Proof.
  induction ops as [|o ops IH]; intros a a' x E; [exact E|]. cbn [apply_ops]. apply IH. now apply apply_op_at.
Qed.
Lemma apply_op_again d o a x : apply_op d o (apply_op d o a) x = apply_op d o a x.
Proof.
  destruct o as [off n src|c data|c]; cbn.
  - destruct (in_boxb off n x); reflexivity.
  - destruct (list_eq_dec _ _ _); reflexivity.
  - destruct (list_eq_dec _ _ _); reflexivity.
Qed.
Lemma ops_of_app l l' : ops_of (l ++ l') = ops_of l ++ ops_of l'.
Proof. induction l as [|[]]; cbn; [reflexivity|assumption|now rewrite IHl]. Qed.
Lemma apply_ops_app d l l' a : apply_ops d (l ++ l') a = apply_ops d l' (apply_ops d l a).
Proof. revert a. induction l as [|o l IH]; intros a; [reflexivity|]. cbn. apply IH. Qed.

Lemma repeated d cs a0 n (mo : shape -> nat) x : (n <= mo x <= S n)%nat ->
  apply_ops d (ops_of (skipn n cs)) (fun z => apply_ops d (ops_of (firstn (mo z) cs)) a0 z) x = apply_ops d (ops_of cs) a0 x.
Proof.
  intros Hm.
  assert (E0 : apply_ops d (ops_of cs) a0 = apply_ops d (ops_of (skipn n cs)) (apply_ops d (ops_of (firstn n cs)) a0))
    by (rewrite <- apply_ops_app, <- ops_of_app, firstn_skipn; reflexivity).
  rewrite E0.
  assert (mo x = n \/ mo x = S n) as [E|E] by lia.
  - apply apply_ops_at. now rewrite E.
  - destruct (nth_error cs n) as [c|] eqn:Nc.
    + assert (ES : skipn n cs = c :: skipn (S n) cs).
      { clear - Nc. revert cs Nc. induction n as [|n IH]; intros [|z cs] Nc; cbn in *; try discriminate; [congruence|]. now rewrite IH. }
      rewrite ES. destruct c as [ov off out|o]; cbn [ops_of apply_ops]; apply apply_ops_at.
      * rewrite E, (firstn_S Nc), ops_of_app. cbn. now rewrite app_nil_r.
      * etransitivity; [|apply (apply_op_again d o)]. apply apply_op_at. rewrite E, (firstn_S Nc), ops_of_app, apply_ops_app. reflexivity.
    + apply nth_error_None in Nc. apply apply_ops_at. rewrite E. now rewrite !firstn_all2 by lia.
Qed.

Lemma shows_ext d a a' ov off out out' : (forall x, a x = a' x) -> shows_region d a ov off out out' -> shows_region d a' ov off out out'.
Proof.
  intros E (L & V & F). split; [exact L|]. split; [|exact F]. intros i Hi. destruct (V i Hi) as (v & V1 & V2 & V3).
  exists v. rewrite <- E. auto.
Qed.

Theorem s3_retry d pre st00 st0 calls wr cs y : dataset_ok d -> can_write (d_mode d) = true -> Forall (array_op_ok d) pre ->
  (forall c, valid_chunk (d_shape d) (d_chunks d) c -> st00 (chunk_key (d_key d) c) = None) ->
  run_array_ops d pre st00 = (st0, Ok tt) ->
  Forall (Forall (client_call_ok d)) calls -> nth_error calls wr = Some cs ->
  (forall t' cs', t' <> wr -> nth_error calls t' = Some cs' -> Forall read_only cs') ->
  reach (clients_step (s3_body d)) (clients_init st0 calls) y ->
  exists st', run_array_ops d (ops_of (skipn (length (calls_by wr (k_log y))) cs)) (k_files y) = (st', Ok tt) /\
    forall ov off out, region_ok d off (v_shape ov) -> out_view_ok ov (lenN out) ->
      exists out', read_subarray d st' ov off out = Ok out' /\
        shows_region d (apply_ops d (ops_of cs) (apply_ops d pre (fun _ => d_fill d))) ov off out out'.
Proof.
  intros ok Hw Hpre He Er HG Hcs Hro R.
  destruct (@s3_stopped d ok Hw pre st00 st0 calls wr cs y Hpre He Er HG Hcs Hro R) as (moment & RANGE & _ & POST).
  set (n := length (calls_by wr (k_log y))) in *.
  assert (Hpost : Forall (array_op_ok d) (ops_of (skipn n cs))).
  { assert (F : Forall (client_call_ok d) (skipn n cs)).
    { rewrite Forall_forall in HG. specialize (HG _ (nth_error_In _ _ Hcs)). rewrite Forall_forall in HG |- *.
      intros c Hc. apply HG. rewrite <- (firstn_skipn n cs). apply in_or_app. now right. }
    clear - F. induction F as [|c l Hc F IH]; [constructor|]. destruct c; cbn; [exact IH|constructor; [exact Hc|exact IH]]. }
  destruct (POST _ Hpost) as (st' & E & RD). exists st'. split; [exact E|]. intros ov off out Hreg Hov.
  destruct (RD ov off out Hreg Hov) as (out' & E2 & S). exists out'. split; [exact E2|].
  eapply shows_ext; [|exact S]. intros x. unfold chunk_patchwork.
  exact (@repeated d cs _ n (fun z => moment (chunk_of (d_chunks d) z)) x (RANGE _)).
Qed.
Theorem s3_sharded_retry sd pre st00 st0 calls wr cs y : sharded_ok sd -> can_write (d_mode (sd_base sd)) = true ->
  Forall (array_op_ok (sd_base sd)) pre ->
  (forall c, valid_chunk (d_shape (sd_base sd)) (d_chunks (sd_base sd)) c -> st00 (shard_key sd c) = None) ->
  run_sharded_ops sd pre st00 = (st0, Ok tt) ->
  Forall (Forall (client_call_ok (sd_base sd))) calls -> nth_error calls wr = Some cs ->
  (forall t' cs', t' <> wr -> nth_error calls t' = Some cs' -> Forall read_only cs') ->
  reach (clients_step (s3_sharded_body sd)) (clients_init st0 calls) y ->
  exists st', run_sharded_ops sd (ops_of (skipn (length (calls_by wr (k_log y))) cs)) (k_files y) = (st', Ok tt) /\
    forall ov off out, region_ok (sd_base sd) off (v_shape ov) -> out_view_ok ov (lenN out) ->
      exists out', sh_read_subarray sd st' ov off out = Ok out' /\
        shows_region (sd_base sd) (apply_ops (sd_base sd) (ops_of cs) (apply_ops (sd_base sd) pre (fun _ => d_fill (sd_base sd)))) ov off out out'.
Proof.
  intros sok Hw Hpre He Er HG Hcs Hro R.
  destruct (@s3_sharded_stopped sd pre st00 st0 calls wr cs y sok Hw Hpre He Er HG Hcs Hro R) as (moment & RANGE & _ & POST).
  set (n := length (calls_by wr (k_log y))) in *.
  assert (Hpost : Forall (array_op_ok (sd_base sd)) (ops_of (skipn n cs))).
  { assert (F : Forall (client_call_ok (sd_base sd)) (skipn n cs)).
    { rewrite Forall_forall in HG. specialize (HG _ (nth_error_In _ _ Hcs)). rewrite Forall_forall in HG |- *.
      intros c Hc. apply HG. rewrite <- (firstn_skipn n cs). apply in_or_app. now right. }
    clear - F. induction F as [|c l Hc F IH]; [constructor|]. destruct c; cbn; [exact IH|constructor; [exact Hc|exact IH]]. }
  destruct (POST _ Hpost) as (st' & E & RD). exists st'. split; [exact E|]. intros ov off out Hreg Hov.
  destruct (RD ov off out Hreg Hov) as (out' & E2 & S). exists out'. split; [exact E2|].
  eapply shows_ext; [|exact S]. intros x. unfold patchwork.
  exact (@repeated (sd_base sd) cs _ n (fun z => moment (shard_of (sd_cps sd) (chunk_of (d_chunks (sd_base sd)) z))) x (RANGE _)).
Qed.
