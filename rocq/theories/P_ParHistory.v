(** Histories of operations that run on several threads. *)
From Verif Require Import M_Base M_Text M_Key M_Blocking M_View M_Bytes M_N5Header M_Format
  M_Mode M_Shard M_Dataset M_Sharded M_Access M_Pool M_Parallel
  S_Array S_Grid S_Bytes S_Text S_Format S_Shard S_Dataset S_Sharded S_Access S_File S_Pool S_Parallel
  P_Base P_Blocking P_Roi P_View P_Bytes P_Key P_Format P_Shard P_Dataset P_Access P_Read P_History P_Sharded P_File P_Pool
  P_Foreach P_Parallel P_ParWrite P_ParSharded.
Import List ListNotations.
Local Open Scope list_scope.
Local Open Scope N_scope.

Section Plain.
Variable d : dataset.
Hypothesis ok : dataset_ok d.
Hypothesis Hw : can_write (d_mode d) = true.
Notation w := (t_width (d_type d)).
Notation s := (d_shape d).
Notation b := (d_chunks d).
Notation valid := (valid_chunk (d_shape d) (d_chunks d)).

Lemma holds_ext st st2 C : (forall k, st2 k = st k) -> holds d st C -> holds d st2 C.
Proof.
  intros E H c Hc. specialize (H c Hc). destruct (option_map _ (C c)) as [[vl data]|]; cbn in *; rewrite E; exact H.
Qed.

Lemma par_op_spec threads est o st st1 r C a : array_op_ok d o -> par_op d threads est o st st1 r ->
  holds d st C -> represents d C a ->
  r = Ok tt /\ exists C', holds d st1 C' /\ represents d C' (apply_op d o a).
Proof.
  intros HO H HC HR. destruct (run_array_op_spec ok Hw HO HC HR) as (st' & C' & E & HC' & HR' & _).
  destruct o as [off n src|c data|c]; cbn [par_op run_array_op] in *.
  - destruct HO as [Hreg Hsrc].
    destruct (par_write_steady ok Hreg Hsrc (fun c Hc => holds_steady ok HC (overlaps_valid Hc)) H) as (R1 & R2 & _ & _).
    rewrite E in *. cbn [fst snd] in *. split; [exact R1|]. exists C'. split; [|exact HR'].
    eapply holds_ext; [|exact HC']. exact (R2 R1).
  - rewrite E in H. injection H as <- <-. eauto.
  - rewrite E in H. injection H as <- <-. eauto.
Qed.

Lemma history_spec ops : Forall (fun o => array_op_ok d (snd o)) ops -> forall st st' rs C a,
  history (par_op d) ops st st' rs -> holds d st C -> represents d C a ->
  Forall (eq (Ok tt)) rs /\ exists C', holds d st' C' /\ represents d C' (apply_ops d (map snd ops) a).
Proof.
  intros HO st st' rs C a H. revert HO C a. induction H as [st|threads est o ops st st1 st2 r rs H HH IH]; intros HO C a HC HR.
  - split; [constructor|]. exists C. auto.
  - apply Forall_cons_iff in HO as [HO1 HO2]. cbn [snd] in HO1.
    destruct (par_op_spec HO1 H HC HR) as (-> & C1 & HC1 & HR1).
    destruct (IH HO2 C1 _ HC1 HR1) as [F R]. split; [constructor; auto|exact R].
Qed.

Lemma history_exists ops : Forall (fun o => array_op_ok d (snd o)) ops -> forall st C a,
  holds d st C -> represents d C a -> exists st' rs, history (par_op d) ops st st' rs.
Proof.
  induction ops as [|[[threads est] o] ops IH]; intros F st C a HC HR; [do 2 eexists; apply history_nil|].
  apply Forall_cons_iff in F as [F1 F2]. cbn [snd] in F1.
  assert (S : exists st1 r, par_op d threads est o st st1 r).
  { destruct o as [off n src|c data|c]; cbn [par_op].
    - destruct F1 as [Hr Hs]. apply (write_exists_steady ok); auto.
      intros c Hc. exact (holds_steady ok HC (overlaps_valid Hc)).
    - destruct (write_chunk d c data false 0 st) as [s1 r1]. eauto.
    - destruct (remove_chunk d c st) as [s1 r1]. eauto. }
  destruct S as (st1 & r & S).
  destruct (par_op_spec F1 S HC HR) as (_ & C1 & HC1 & HR1).
  destruct (IH F2 st1 C1 _ HC1 HR1) as (st' & rs & HH). do 2 eexists. eapply history_cons; eauto.
Qed.
Theorem plain_history_exists ops st : Forall (fun o => array_op_ok d (snd o)) ops ->
  (forall c, valid c -> st (chunk_key (d_key d) c) = None) -> exists st' rs, history (par_op d) ops st st' rs.
Proof. intros HO He. exact (history_exists HO (holds_empty He) (@represents_empty d)). Qed.

Lemma read_after threads est ov off st l o o' r C : region_ok d off (v_shape ov) -> out_view_ok ov (lenN l) ->
  holds d st C -> lists o l -> read_run d threads est st ov off (lenN l) o o' r ->
  r = Ok tt /\
  (forall i, in_shape (v_shape ov) i -> o' (out_addr ov i) = val d C (vadd off i)) /\
  (forall a, (forall i, in_shape (v_shape ov) i -> a <> out_addr ov i) -> o' a = o a).
Proof using ok.
  clear Hw. intros Hreg Hov HC HL H.
  destruct (par_read_steady ok Hreg Hov (fun c Hc => holds_unit_steady ok Hreg Hc HC) HL H) as [R1 R2].
  destruct (@read_subarray_spec d ok ov off st C l Hreg HC Hov) as (l' & E & L & A & _). rewrite E in R1. destruct R1 as [-> R1].
  split; [reflexivity|]. split; [|exact R2]. intros i Hi. specialize (A i Hi).
  pose proof (R1 _ (getN_bound A)) as X. congruence.
Qed.

Theorem plain_history ops st st' rs : Forall (fun o => array_op_ok d (snd o)) ops ->
  (forall c, valid c -> st (chunk_key (d_key d) c) = None) ->
  history (par_op d) ops st st' rs ->
  Forall (eq (Ok tt)) rs /\
  forall threads est ov off l o o' r, region_ok d off (v_shape ov) -> out_view_ok ov (lenN l) -> lists o l ->
    read_run d threads est st' ov off (lenN l) o o' r ->
    r = Ok tt /\
    (forall i, in_shape (v_shape ov) i ->
       same_value d (o' (v_off ov + lin (v_strides ov) i)) (apply_ops d (map snd ops) (fun _ => d_fill d) (vadd off i)) /\
       (t_float (d_type d) = false ->
          o' (v_off ov + lin (v_strides ov) i) = apply_ops d (map snd ops) (fun _ => d_fill d) (vadd off i))) /\
    (forall a, (forall i, in_shape (v_shape ov) i -> a <> v_off ov + lin (v_strides ov) i) -> o' a = o a).
Proof.
  intros HO He H. destruct (history_spec HO H (holds_empty He) (@represents_empty d)) as (HF & C & HC & HR).
  split; [exact HF|]. intros threads est ov off l o o' r Hreg Hov HL HRun.
  destruct (read_after Hreg Hov HC HL HRun) as (R1 & R2 & R3). split; [exact R1|]. split; [|exact R3].
  assert (HO' : Forall (array_op_ok d) (map snd ops)) by now apply Forall_map.
  intros i Hi. specialize (R2 i Hi). unfold out_addr in R2. rewrite R2.
  assert (Hx : in_shape s (vadd off i)).
  { eapply region_in_shape; [apply Hreg|]. apply sub_in_box; [|exact Hi].
    destruct Hreg as [Hr _]. unfold valid_region in Hr; apply all3_length in Hr; lia. }
  split; [now apply HR|]. intros Hf.
  destruct (@apply_ops_cells d ok _ HO' (fun _ => d_fill d) (fun _ _ => do_fill ok) _ Hx) as [A1 A2].
  destruct (val_cell ok HC Hx) as [V1 V2]. eapply same_value_int; eauto.
Qed.
End Plain.

Section Sharded.
Variable sd : sharded.
Hypothesis sok : sharded_ok sd.
Hypothesis Hw : can_write (d_mode (sd_base sd)) = true.
Variable m : N.
Notation d := (sd_base sd).
Notation w := (t_width (d_type (sd_base sd))).
Notation s := (d_shape (sd_base sd)).
Notation b := (d_chunks (sd_base sd)).
Notation cps := (sd_cps sd).
Notation valid := (valid_chunk (d_shape (sd_base sd)) (d_chunks (sd_base sd))).
Notation ok := (so_base sok).
Hypothesis m_total : prod (sd_cps sd) * m < W64 - 1.
Hypothesis m_blob : forall data, buffer_of (t_width (d_type (sd_base sd))) (prod (d_chunks (sd_base sd))) data ->
      forall e, stored_as (d_codec (sd_base sd)) (concat data) e -> 0 < lenN e /\ lenN e <= m.
Notation all_shards := (fun _ : shape => True).
Notation holds_all := (holds_sh sd m (own_blob sd) own_shard all_shards).

Lemma holds_sh_ext st st2 C : (forall k, st2 k = st k) -> holds_all st C -> holds_all st2 C.
Proof using.
  clear. intros E H c Hc HG. destruct (H c Hc HG) as (blobs & (S1 & S2 & S3) & R). exists blobs. split; [|exact R].
  split; [exact S1|]. split; [exact S2|]. rewrite E. exact S3.
Qed.

Lemma holds_slot_steady st C c : holds_all st C -> valid c -> slot_steady sd st c.
Proof using sok m_total m_blob.
  intros H Hc x Ex Hx. destruct (H c Hc Logic.I) as (blobs & SS & (R1 & R2 & R3)).
  pose proof (shard_of_len sok (valid_len Hc)) as LK. pose proof (read_blobs_ok sok m_total m_blob LK SS) as EB.
  destruct (shard_cases sok st LK) as [[E _]|(blobs' & raw & E & _ & _ & _ & HB)]; [congruence|].
  assert (blobs' = blobs) by congruence. subst blobs'.
  destruct (HB c (valid_len Hc) eq_refl) as (y & Gy & Ey). assert (y = x) by congruence. subst y.
  destruct (R3 c Hc eq_refl) as (y & Gy' & Ry). assert (y = x) by congruence. subst y.
  destruct (C c) as [data|]; cbn [blob_rel] in Ry; [|congruence]. destruct Ry as (_ & HBf & HD & _).
  left. exists data. auto.
Qed.

Lemma sh_par_op_spec threads est o st st1 r C a : array_op_ok d o -> sh_par_op sd threads est o st st1 r ->
  holds_all st C -> represents d C a ->
  r = Ok tt /\ exists C', holds_all st1 C' /\ represents d C' (apply_op d o a).
Proof.
  intros HO H HC HR.
  destruct (@run_sharded_op_spec sd sok m m_total m_blob (own_blob sd) (@own_blob_ok sd) own_shard (@own_shard_ok sd) all_shards o st C a (fun _ => Logic.I) Hw HO HC HR) as (st' & C' & E & HC' & HR' & _).
  destruct o as [off n src|c data|c]; cbn [sh_par_op run_sharded_op] in *.
  - destruct HO as [Hreg Hsrc].
    destruct (sh_par_write_steady sok Hreg Hsrc (fun c Hc => holds_slot_steady HC (overlaps_valid Hc)) H) as (R1 & R2 & _ & _).
    rewrite E in *. cbn [fst snd] in *. split; [exact R1|]. exists C'. split; [|exact HR'].
    eapply holds_sh_ext; [|exact HC']. exact (R2 R1).
  - rewrite E in H. injection H as <- <-. eauto.
  - rewrite E in H. injection H as <- <-. eauto.
Qed.

Lemma sh_history_spec ops : Forall (fun o => array_op_ok d (snd o)) ops -> forall st st' rs C a,
  history (sh_par_op sd) ops st st' rs -> holds_all st C -> represents d C a ->
  Forall (eq (Ok tt)) rs /\ exists C', holds_all st' C' /\ represents d C' (apply_ops d (map snd ops) a).
Proof.
  intros HO st st' rs C a H. revert HO C a. induction H as [st|threads est o ops st st1 st2 r rs H HH IH]; intros HO C a HC HR.
  - split; [constructor|]. exists C. auto.
  - apply Forall_cons_iff in HO as [HO1 HO2]. cbn [snd] in HO1.
    destruct (sh_par_op_spec HO1 H HC HR) as (-> & C1 & HC1 & HR1).
    destruct (IH HO2 C1 _ HC1 HR1) as [F R]. split; [constructor; auto|exact R].
Qed.

Lemma sh_history_exists ops : Forall (fun o => array_op_ok d (snd o)) ops -> forall st C a,
  holds_all st C -> represents d C a -> exists st' rs, history (sh_par_op sd) ops st st' rs.
Proof.
  induction ops as [|[[threads est] o] ops IH]; intros F st C a HC HR; [do 2 eexists; apply history_nil|].
  apply Forall_cons_iff in F as [F1 F2]. cbn [snd] in F1.
  assert (S : exists st1 r, sh_par_op sd threads est o st st1 r).
  { destruct o as [off n src|c data|c]; cbn [sh_par_op].
    - destruct F1 as [Hr Hs]. apply (sh_write_exists_steady sok); auto.
      intros c Hc. exact (holds_slot_steady HC (overlaps_valid Hc)).
    - destruct (sh_write_chunk sd c data false st) as [s1 r1]. eauto.
    - destruct (sh_remove_chunk sd c st) as [s1 r1]. eauto. }
  destruct S as (st1 & r & S).
  destruct (sh_par_op_spec F1 S HC HR) as (_ & C1 & HC1 & HR1).
  destruct (IH F2 st1 C1 _ HC1 HR1) as (st' & rs & HH). do 2 eexists. eapply history_cons; eauto.
Qed.

Lemma sh_read_after threads est ov off st l o o' r C : region_ok d off (v_shape ov) -> out_view_ok ov (lenN l) ->
  holds_all st C -> lists o l -> sh_read_run sd threads est st ov off (lenN l) o o' r ->
  r = Ok tt /\
  (forall i, in_shape (v_shape ov) i -> o' (out_addr ov i) = val d C (vadd off i)) /\
  (forall a, (forall i, in_shape (v_shape ov) i -> a <> out_addr ov i) -> o' a = o a).
Proof using sok m_total m_blob.
  clear Hw. intros Hreg Hov HC HL H.
  destruct (sh_par_read_steady sok Hreg Hov (fun c Hc => holds_slot_steady HC (overlaps_valid Hc)) HL H) as [R1 R2].
  destruct (@sh_read_subarray_spec sd sok m m_total m_blob (own_blob sd) (@own_blob_ok sd) own_shard (@own_shard_ok sd) all_shards ov off st C l Hreg (fun _ _ => Logic.I) HC Hov) as (l' & E & L & A & _).
  rewrite E in R1. destruct R1 as [-> R1].
  split; [reflexivity|]. split; [|exact R2]. intros i Hi. specialize (A i Hi).
  pose proof (R1 _ (getN_bound A)) as X. congruence.
Qed.

Lemma sharded_history_m ops st st' rs : Forall (fun o => array_op_ok d (snd o)) ops ->
  (forall c, valid c -> st (shard_key sd c) = None) ->
  history (sh_par_op sd) ops st st' rs ->
  Forall (eq (Ok tt)) rs /\
  forall threads est ov off l o o' r, region_ok d off (v_shape ov) -> out_view_ok ov (lenN l) -> lists o l ->
    sh_read_run sd threads est st' ov off (lenN l) o o' r ->
    r = Ok tt /\
    (forall i, in_shape (v_shape ov) i ->
       same_value d (o' (v_off ov + lin (v_strides ov) i)) (apply_ops d (map snd ops) (fun _ => d_fill d) (vadd off i)) /\
       (t_float (d_type d) = false ->
          o' (v_off ov + lin (v_strides ov) i) = apply_ops d (map snd ops) (fun _ => d_fill d) (vadd off i))) /\
    (forall a, (forall i, in_shape (v_shape ov) i -> a <> v_off ov + lin (v_strides ov) i) -> o' a = o a).
Proof.
  intros HO He H.
  destruct (sh_history_spec HO H (@holds_sh_empty sd sok m m_total m_blob (own_blob sd) (@own_blob_ok sd) own_shard (@own_shard_ok sd) all_shards st He) (@represents_empty d)) as (HF & C & HC & HR).
  split; [exact HF|]. intros threads est ov off l o o' r Hreg Hov HL HRun.
  destruct (sh_read_after Hreg Hov HC HL HRun) as (R1 & R2 & R3). split; [exact R1|]. split; [|exact R3].
  assert (HO' : Forall (array_op_ok d) (map snd ops)) by now apply Forall_map.
  intros i Hi. specialize (R2 i Hi). unfold out_addr in R2. rewrite R2.
  assert (Hx : in_shape s (vadd off i)).
  { eapply region_in_shape; [apply Hreg|]. apply sub_in_box; [|exact Hi].
    destruct Hreg as [Hr _]. unfold valid_region in Hr; apply all3_length in Hr; lia. }
  destruct (@val_cell_sh sd sok m (own_blob sd) own_shard all_shards st' C _ Logic.I HC Hx) as [V1 V2].
  split; [now apply HR|]. intros Hf.
  destruct (@apply_ops_cells d ok _ HO' (fun _ => d_fill d) (fun _ _ => do_fill ok) _ Hx) as [A1 A2].
  exact (same_value_int ok Hf (HR _ Hx) V1 A1 V2 A2).
Qed.
End Sharded.

Theorem sharded_history sd ops st st' rs : sharded_ok sd -> can_write (d_mode (sd_base sd)) = true ->
  Forall (fun o => array_op_ok (sd_base sd) (snd o)) ops ->
  (forall c, valid_chunk (d_shape (sd_base sd)) (d_chunks (sd_base sd)) c -> st (shard_key sd c) = None) ->
  history (sh_par_op sd) ops st st' rs ->
  Forall (eq (Ok tt)) rs /\
  forall threads est ov off l o o' r, region_ok (sd_base sd) off (v_shape ov) -> out_view_ok ov (lenN l) -> lists o l ->
    sh_read_run sd threads est st' ov off (lenN l) o o' r ->
    r = Ok tt /\
    (forall i, in_shape (v_shape ov) i ->
       same_value (sd_base sd) (o' (v_off ov + lin (v_strides ov) i))
         (apply_ops (sd_base sd) (map snd ops) (fun _ => d_fill (sd_base sd)) (vadd off i)) /\
       (t_float (d_type (sd_base sd)) = false ->
          o' (v_off ov + lin (v_strides ov) i) =
          apply_ops (sd_base sd) (map snd ops) (fun _ => d_fill (sd_base sd)) (vadd off i))) /\
    (forall a, (forall i, in_shape (v_shape ov) i -> a <> v_off ov + lin (v_strides ov) i) -> o' a = o a).
Proof.
  intros sok Hw HO He H. destruct (so_blob sok) as (m & M1 & M2). exact (sharded_history_m sok Hw M1 M2 HO He H).
Qed.

Theorem sharded_history_exists sd ops st : sharded_ok sd -> can_write (d_mode (sd_base sd)) = true ->
  Forall (fun o => array_op_ok (sd_base sd) (snd o)) ops ->
  (forall c, valid_chunk (d_shape (sd_base sd)) (d_chunks (sd_base sd)) c -> st (shard_key sd c) = None) ->
  exists st' rs, history (sh_par_op sd) ops st st' rs.
Proof.
  intros sok Hw HO He. destruct (so_blob sok) as (m & M1 & M2).
  exact (sh_history_exists sok Hw M1 M2 HO (@holds_sh_empty sd sok m M1 M2 (own_blob sd) (@own_blob_ok sd) own_shard (@own_shard_ok sd) (fun _ => True) st He) (@represents_empty (sd_base sd))).
Qed.
