(** Writes to an object store on several threads that are stopped: the array afterwards. *)
From Verif Require Import M_Base M_Text M_Key M_Blocking M_View M_Bytes M_N5Header M_Format
  M_Mode M_Shard M_Dataset M_Sharded M_Access M_Pool M_Parallel M_Lock M_Clients M_S3Clients M_RemoveCrash M_S3Parallel
  S_Array S_Grid S_Bytes S_Text S_Format S_Shard S_Dataset S_Sharded S_Access S_File S_Pool S_Parallel
  S_Lock S_Clients S_Readers S_S3Clients S_S3Parallel
  P_Base P_Blocking P_Roi P_View P_Bytes P_Key P_Format P_Shard P_Dataset P_Access P_Read P_History P_Sharded P_File P_Pool
  P_Foreach P_Parallel P_ParWrite P_ParSharded P_ParHistory P_Lock P_Clients P_Clients2 P_Readers P_Readers2 P_Readers3 P_S3Clients
  P_S3Takeover P_Crash P_ParCrash P_S3Parallel P_S3Parallel2 P_S3Parallel3.
Import List ListNotations.
Local Open Scope list_scope.


Lemma object_dec (x y : option bytes) : {x = y} + {x <> y}.
Proof. decide equality. apply (list_eq_dec N.eq_dec). Defined.

Lemma partly_cells d (a a' : shape -> cell) done :
  (forall x, in_shape (d_shape d) x -> lenN (a x) = t_width (d_type d) /\ Forall is_byte (a x)) ->
  (forall x, in_shape (d_shape d) x -> lenN (a' x) = t_width (d_type d) /\ Forall is_byte (a' x)) ->
  forall x, in_shape (d_shape d) x -> lenN (partly done a a' x) = t_width (d_type d) /\ Forall is_byte (partly done a a' x).
Proof. intros H H' x Hx. unfold partly. destruct (done x); auto. Qed.

Lemma partly_again d o ops (done : shape -> bool) (a : shape -> cell) x :
  apply_ops d (o :: ops) (partly done (apply_op d o a) a) x = apply_ops d (o :: ops) a x.
Proof.
  cbn [apply_ops]. apply apply_ops_at. unfold partly. destruct (done x) eqn:E.
  - rewrite <- (apply_op_again d o a x). apply apply_op_at. now rewrite E.
  - apply apply_op_at. now rewrite E.
Qed.

Section Plain.
Local Open Scope N_scope.
Variable d : dataset.
Hypothesis ok : dataset_ok d.
Hypothesis Hw : can_write (d_mode d) = true.
Notation w := (t_width (d_type d)).
Notation s := (d_shape d).
Notation b := (d_chunks d).
Notation valid := (valid_chunk (d_shape d) (d_chunks d)).
Notation key := (chunk_key (d_key d)).
Notation empty := (fun _ : shape => d_fill d).

Theorem s3_halted_array threads est before src off n st st1 rs st2 :
  Forall (fun o => array_op_ok d (snd o)) before -> array_op_ok d (AWrite off n src) ->
  (forall c, valid c -> st (key c) = None) ->
  history (s3_par_op d) before st st1 rs -> s3_write_halted d threads est src off n st1 st2 ->
  exists fresh : shape -> bool, (forall c, fresh c = true -> overlaps s b off n c) /\
  forall after st3 rs', Forall (fun o => array_op_ok d (snd o)) after -> history (s3_par_op d) after st2 st3 rs' ->
    Forall (eq (Ok tt)) rs' /\
    forall threads' est' ov off' l o o' r, region_ok d off' (v_shape ov) -> out_view_ok ov (lenN l) -> lists o l ->
      read_run d threads' est' st3 ov off' (lenN l) o o' r ->
      r = Ok tt /\
      reads_as d (apply_ops d (map snd after)
        (partly (fun x => fresh (chunk_of b x)) (apply_ops d (map snd before ++ [AWrite off n src]) empty)
          (apply_ops d (map snd before) empty))) ov off' o o'.
Proof.
  intros HB Hop He H HH. pose proof Hop as [Hreg Hsrc].
  destruct (s3_history_spec ok Hw HB H (holds_empty He) (@represents_empty d)) as (_ & C & HO & HR).
  destruct (run_array_op_spec ok (o := AWrite off n src) Hw Hop HO HR) as (st4 & C' & E & HO' & HR' & _). cbn [run_array_op] in E.
  pose proof (s3_halted_objects ok Hreg Hsrc (fun c Hc => holds_steady ok HO (overlaps_valid Hc)) ltac:(now rewrite E) HH) as K.
  rewrite E in K. cbn [fst] in K.
  set (fresh := fun c => if object_dec (st2 (key c)) (st1 (key c)) then false else true).
  exists fresh. split.
  { intros c. unfold fresh. destruct (object_dec _ _) as [|NE]; [discriminate|intros _].
    destruct (K (key c)) as [X|(_ & c' & Ho & EK)]; [contradiction|]. apply (key_inj ok) in EK. now subst. }
  assert (HM : holds d st2 (fun c => if fresh c then C' c else C c)).
  { intros c Hc. specialize (HO c Hc). specialize (HO' c Hc). unfold fresh, chunk_holds in *.
    destruct (object_dec (st2 (key c)) (st1 (key c))) as [X|NE]; [now rewrite X|].
    destruct (K (key c)) as [X|[X _]]; [contradiction|]. now rewrite X. }
  assert (RM : represents d (fun c => if fresh c then C' c else C c)
    (partly (fun x => fresh (chunk_of b x)) (apply_ops d (map snd before ++ [AWrite off n src]) empty) (apply_ops d (map snd before) empty))).
  { intros x Hx. specialize (HR x Hx). specialize (HR' x Hx). unfold partly, val in *. destruct (fresh (chunk_of b x)); [|exact HR].
    rewrite apply_ops_app. exact HR'. }
  intros after st3 rs' HA HF. destruct (s3_history_spec ok Hw HA HF HM RM) as (F & C3 & HC & HR3).
  split; [exact F|]. intros threads' est' ov off' l o o' r Hreg' Hov HL HRun.
  destruct (read_after ok Hreg' Hov HC HL HRun) as (R1 & R2 & R3). split; [exact R1|]. split; [|exact R3].
  assert (HA' : Forall (array_op_ok d) (map snd after)) by now apply Forall_map.
  assert (HB' : Forall (array_op_ok d) (map snd before)) by now apply Forall_map.
  assert (HB2 : Forall (array_op_ok d) (map snd before ++ [AWrite off n src])) by (apply Forall_app; auto).
  intros i Hi. specialize (R2 i Hi). unfold out_addr in R2. rewrite R2.
  assert (Hx : in_shape s (vadd off' i)).
  { eapply region_in_shape; [apply Hreg'|]. apply sub_in_box; [|exact Hi].
    destruct Hreg' as [Hr _]. unfold valid_region in Hr; apply all3_length in Hr; lia. }
  split; [now apply HR3|]. intros Hf.
  destruct (@apply_ops_cells d ok _ HA' _ (partly_cells (fun x => fresh (chunk_of b x)) (@apply_ops_cells d ok _ HB2 empty (fun _ _ => do_fill ok)) (@apply_ops_cells d ok _ HB' empty (fun _ _ => do_fill ok))) _ Hx) as [A1 A2].
  destruct (val_cell ok HC Hx) as [V1 V2]. eapply same_value_int; eauto.
Qed.

Theorem s3_halted_repeated threads est before src off n st st1 rs st2 :
  Forall (fun o => array_op_ok d (snd o)) before -> array_op_ok d (AWrite off n src) ->
  (forall c, valid c -> st (key c) = None) ->
  history (s3_par_op d) before st st1 rs -> s3_write_halted d threads est src off n st1 st2 ->
  forall threads2 est2 after st3 rs', Forall (fun o => array_op_ok d (snd o)) after ->
    history (s3_par_op d) ((threads2, est2, AWrite off n src) :: after) st2 st3 rs' ->
    Forall (eq (Ok tt)) rs' /\
    forall threads' est' ov off' l o o' r, region_ok d off' (v_shape ov) -> out_view_ok ov (lenN l) -> lists o l ->
      read_run d threads' est' st3 ov off' (lenN l) o o' r ->
      r = Ok tt /\ reads_as d (apply_ops d (map snd before ++ AWrite off n src :: map snd after) empty) ov off' o o'.
Proof.
  intros HB Hop He H HH threads2 est2 after st3 rs' HA HF.
  destruct (s3_halted_array HB Hop He H HH) as (fresh & _ & K).
  destruct (K _ st3 rs' (Forall_cons (threads2, est2, AWrite off n src) Hop HA) HF) as [K1 K2]. split; [exact K1|].
  intros threads' est' ov off' l o o' r Hreg' Hov HL HRun. destruct (K2 _ _ _ _ _ _ _ _ Hreg' Hov HL HRun) as [R1 [R2 R3]].
  split; [exact R1|]. split; [|exact R3]. intros i Hi. specialize (R2 i Hi). cbn [map snd] in R2.
  rewrite apply_ops_app in R2. cbn [apply_ops] in R2. 
  pose proof (partly_again d (AWrite off n src) (map snd after) (fun x => fresh (chunk_of b x)) (apply_ops d (map snd before) empty) (vadd off' i)) as E.
  cbn [apply_ops] in E. rewrite E in R2. rewrite apply_ops_app. exact R2.
Qed.

Theorem s3_halted_goes_on threads est before src off n st st1 rs st2 :
  Forall (fun o => array_op_ok d (snd o)) before -> array_op_ok d (AWrite off n src) ->
  (forall c, valid c -> st (key c) = None) ->
  history (s3_par_op d) before st st1 rs -> s3_write_halted d threads est src off n st1 st2 ->
  forall after, Forall (fun o => array_op_ok d (snd o)) after -> exists st3 rs', history (s3_par_op d) after st2 st3 rs'.
Proof.
  intros HB Hop He H HH. pose proof Hop as [Hreg Hsrc].
  destruct (s3_history_spec ok Hw HB H (holds_empty He) (@represents_empty d)) as (_ & C & HO & HR).
  destruct (run_array_op_spec ok (o := AWrite off n src) Hw Hop HO HR) as (st4 & C' & E & HO' & HR' & _). cbn [run_array_op] in E.
  pose proof (s3_halted_objects ok Hreg Hsrc (fun c Hc => holds_steady ok HO (overlaps_valid Hc)) ltac:(now rewrite E) HH) as K.
  rewrite E in K. cbn [fst] in K.
  set (fresh := fun c => if object_dec (st2 (key c)) (st1 (key c)) then false else true).
  assert (HM : holds d st2 (fun c => if fresh c then C' c else C c)).
  { intros c Hc. specialize (HO c Hc). specialize (HO' c Hc). unfold fresh, chunk_holds in *.
    destruct (object_dec (st2 (key c)) (st1 (key c))) as [X|NE]; [now rewrite X|].
    destruct (K (key c)) as [X|[X _]]; [contradiction|]. now rewrite X. }
  intros after HA. refine (s3_history_exists ok Hw HA HM (a := val d (fun c => if fresh c then C' c else C c)) _).
  intros x Hx. apply same_value_refl.
Qed.
End Plain.

Section Sharded.
Local Open Scope N_scope.
Variable sd : sharded.
Hypothesis sok : sharded_ok sd.
Hypothesis Hw : can_write (d_mode (sd_base sd)) = true.
Notation d := (sd_base sd).
Notation w := (t_width (d_type (sd_base sd))).
Notation s := (d_shape (sd_base sd)).
Notation b := (d_chunks (sd_base sd)).
Notation cps := (sd_cps sd).
Notation ok := (so_base sok).
Notation valid := (valid_chunk (d_shape (sd_base sd)) (d_chunks (sd_base sd))).
Notation key := (chunk_key (d_key (sd_base sd))).
Notation empty := (fun _ : shape => d_fill (sd_base sd)).

Theorem s3_halted_sharded threads est before src off n st st1 rs st2 :
  Forall (fun o => array_op_ok d (snd o)) before -> array_op_ok d (AWrite off n src) ->
  (forall c, valid c -> st (shard_key sd c) = None) ->
  history (s3_sh_par_op sd) before st st1 rs -> s3_sh_write_halted sd threads est src off n st1 st2 ->
  exists fresh : shape -> bool, (forall k, fresh k = true -> exists c, overlaps s b off n c /\ shard_of cps c = k) /\
  forall after st3 rs', Forall (fun o => array_op_ok d (snd o)) after -> history (s3_sh_par_op sd) after st2 st3 rs' ->
    Forall (eq (Ok tt)) rs' /\
    forall threads' est' ov off' l o o' r, region_ok d off' (v_shape ov) -> out_view_ok ov (lenN l) -> lists o l ->
      sh_read_run sd threads' est' st3 ov off' (lenN l) o o' r ->
      r = Ok tt /\
      reads_as d (apply_ops d (map snd after)
        (partly (fun x => fresh (shard_of cps (chunk_of b x))) (apply_ops d (map snd before ++ [AWrite off n src]) empty)
          (apply_ops d (map snd before) empty))) ov off' o o'.
Proof.
  intros HB Hop He H HH. pose proof Hop as [Hreg Hsrc]. destruct (so_blob sok) as (m & M1 & M2).
  destruct (s3_sh_history_spec sok Hw M1 M2 HB H (@holds_sh_empty sd sok m M1 M2 (own_blob sd) (@own_blob_ok sd) own_shard (@own_shard_ok sd) (fun _ => True) st He) (@represents_empty d)) as (_ & C & HO & HR).
  destruct (@run_sharded_op_spec sd sok m M1 M2 (own_blob sd) (@own_blob_ok sd) own_shard (@own_shard_ok sd) (fun _ => True) (AWrite off n src) st1 C _ (fun _ => Logic.I) Hw Hop HO HR) as (st4 & C' & E & HO' & HR' & _). cbn [run_sharded_op] in E.
  pose proof (s3_halted_shards sok Hreg Hsrc (fun c Hc => holds_slot_steady sok M1 M2 HO (overlaps_valid Hc)) ltac:(now rewrite E) HH) as K.
  rewrite E in K. cbn [fst] in K.
  set (fresh := fun c => if object_dec (st2 (key c)) (st1 (key c)) then false else true).
  exists fresh. split.
  { intros c. unfold fresh. destruct (object_dec _ _) as [|NE]; [discriminate|intros _].
    destruct (K (key c)) as [X|(_ & c' & Ho & EK)]; [contradiction|]. unfold shard_key in EK. apply (key_inj ok) in EK. subst. eauto. }
  assert (HM : holds_sh sd m (own_blob sd) own_shard (fun _ => True) st2 (fun c => if fresh (shard_of cps c) then C' c else C c)).
  { intros c Hc HG. destruct (HO c Hc Logic.I) as (b1 & (S1 & S2 & S3) & Q1). destruct (HO' c Hc Logic.I) as (b2 & (T1 & T2 & T3) & Q2).
    assert (K3 : st2 (shard_key sd c) = if fresh (shard_of cps c) then st4 (shard_key sd c) else st1 (shard_key sd c)).
    { unfold fresh. change (key (shard_of cps c)) with (shard_key sd c).
      destruct (object_dec _ _) as [X|NE]; [exact X|]. destruct (K (shard_key sd c)) as [X|[X _]]; [contradiction|exact X]. }
    unfold shard_key in K3. destruct (fresh (shard_of cps c)) eqn:EF.
    - exists b2. split; [split; [exact T1|]; split; [exact T2|]; rewrite K3; exact T3|].
      eapply shard_rel_ext; [|exact Q2]. intros c' _ Hs. now rewrite Hs, EF.
    - exists b1. split; [split; [exact S1|]; split; [exact S2|]; rewrite K3; exact S3|].
      eapply shard_rel_ext; [|exact Q1]. intros c' _ Hs. now rewrite Hs, EF. }
  assert (RM : represents d (fun c => if fresh (shard_of cps c) then C' c else C c)
    (partly (fun x => fresh (shard_of cps (chunk_of b x))) (apply_ops d (map snd before ++ [AWrite off n src]) empty) (apply_ops d (map snd before) empty))).
  { intros x Hx. specialize (HR x Hx). specialize (HR' x Hx). unfold partly, val in *. destruct (fresh (shard_of cps (chunk_of b x))); [|exact HR].
    rewrite apply_ops_app. exact HR'. }
  intros after st3 rs' HA HF. destruct (s3_sh_history_spec sok Hw M1 M2 HA HF HM RM) as (F & C3 & HC & HR3).
  split; [exact F|]. intros threads' est' ov off' l o o' r Hreg' Hov HL HRun.
  destruct (sh_read_after sok M1 M2 Hreg' Hov HC HL HRun) as (R1 & R2 & R3). split; [exact R1|]. split; [|exact R3].
  assert (HA' : Forall (array_op_ok d) (map snd after)) by now apply Forall_map.
  assert (HB' : Forall (array_op_ok d) (map snd before)) by now apply Forall_map.
  assert (HB2 : Forall (array_op_ok d) (map snd before ++ [AWrite off n src])) by (apply Forall_app; auto).
  intros i Hi. specialize (R2 i Hi). unfold out_addr in R2. rewrite R2.
  assert (Hx : in_shape s (vadd off' i)).
  { eapply region_in_shape; [apply Hreg'|]. apply sub_in_box; [|exact Hi].
    destruct Hreg' as [Hr _]. unfold valid_region in Hr; apply all3_length in Hr; lia. }
  split; [now apply HR3|]. intros Hf.
  destruct (@apply_ops_cells d ok _ HA' _ (partly_cells (fun x => fresh (shard_of cps (chunk_of b x))) (@apply_ops_cells d ok _ HB2 empty (fun _ _ => do_fill ok)) (@apply_ops_cells d ok _ HB' empty (fun _ _ => do_fill ok))) _ Hx) as [A1 A2].
  destruct (@val_cell_sh sd sok m (own_blob sd) own_shard (fun _ => True) st3 C3 _ Logic.I HC Hx) as [V1 V2].
  exact (same_value_int ok Hf (HR3 _ Hx) V1 A1 V2 A2).
Qed.

Theorem s3_halted_sharded_repeated threads est before src off n st st1 rs st2 :
  Forall (fun o => array_op_ok d (snd o)) before -> array_op_ok d (AWrite off n src) ->
  (forall c, valid c -> st (shard_key sd c) = None) ->
  history (s3_sh_par_op sd) before st st1 rs -> s3_sh_write_halted sd threads est src off n st1 st2 ->
  forall threads2 est2 after st3 rs', Forall (fun o => array_op_ok d (snd o)) after ->
    history (s3_sh_par_op sd) ((threads2, est2, AWrite off n src) :: after) st2 st3 rs' ->
    Forall (eq (Ok tt)) rs' /\
    forall threads' est' ov off' l o o' r, region_ok d off' (v_shape ov) -> out_view_ok ov (lenN l) -> lists o l ->
      sh_read_run sd threads' est' st3 ov off' (lenN l) o o' r ->
      r = Ok tt /\ reads_as d (apply_ops d (map snd before ++ AWrite off n src :: map snd after) empty) ov off' o o'.
Proof.
  intros HB Hop He H HH threads2 est2 after st3 rs' HA HF.
  destruct (s3_halted_sharded HB Hop He H HH) as (fresh & _ & K).
  destruct (K _ st3 rs' (Forall_cons (threads2, est2, AWrite off n src) Hop HA) HF) as [K1 K2]. split; [exact K1|].
  intros threads' est' ov off' l o o' r Hreg' Hov HL HRun. destruct (K2 _ _ _ _ _ _ _ _ Hreg' Hov HL HRun) as [R1 [R2 R3]].
  split; [exact R1|]. split; [|exact R3]. intros i Hi. specialize (R2 i Hi). cbn [map snd] in R2.
  rewrite apply_ops_app in R2. cbn [apply_ops] in R2. 
  pose proof (partly_again d (AWrite off n src) (map snd after) (fun x => fresh (shard_of cps (chunk_of b x))) (apply_ops d (map snd before) empty) (vadd off' i)) as E.
  cbn [apply_ops] in E. rewrite E in R2. rewrite apply_ops_app. exact R2.
Qed.

Theorem s3_halted_sharded_goes_on threads est before src off n st st1 rs st2 :
  Forall (fun o => array_op_ok d (snd o)) before -> array_op_ok d (AWrite off n src) ->
  (forall c, valid c -> st (shard_key sd c) = None) ->
  history (s3_sh_par_op sd) before st st1 rs -> s3_sh_write_halted sd threads est src off n st1 st2 ->
  forall after, Forall (fun o => array_op_ok d (snd o)) after -> exists st3 rs', history (s3_sh_par_op sd) after st2 st3 rs'.
Proof.
  intros HB Hop He H HH. pose proof Hop as [Hreg Hsrc]. destruct (so_blob sok) as (m & M1 & M2).
  destruct (s3_sh_history_spec sok Hw M1 M2 HB H (@holds_sh_empty sd sok m M1 M2 (own_blob sd) (@own_blob_ok sd) own_shard (@own_shard_ok sd) (fun _ => True) st He) (@represents_empty d)) as (_ & C & HO & HR).
  destruct (@run_sharded_op_spec sd sok m M1 M2 (own_blob sd) (@own_blob_ok sd) own_shard (@own_shard_ok sd) (fun _ => True) (AWrite off n src) st1 C _ (fun _ => Logic.I) Hw Hop HO HR) as (st4 & C' & E & HO' & HR' & _). cbn [run_sharded_op] in E.
  pose proof (s3_halted_shards sok Hreg Hsrc (fun c Hc => holds_slot_steady sok M1 M2 HO (overlaps_valid Hc)) ltac:(now rewrite E) HH) as K.
  rewrite E in K. cbn [fst] in K.
  set (fresh := fun c => if object_dec (st2 (key c)) (st1 (key c)) then false else true).
  assert (HM : holds_sh sd m (own_blob sd) own_shard (fun _ => True) st2 (fun c => if fresh (shard_of cps c) then C' c else C c)).
  { intros c Hc HG. destruct (HO c Hc Logic.I) as (b1 & (S1 & S2 & S3) & Q1). destruct (HO' c Hc Logic.I) as (b2 & (T1 & T2 & T3) & Q2).
    assert (K3 : st2 (shard_key sd c) = if fresh (shard_of cps c) then st4 (shard_key sd c) else st1 (shard_key sd c)).
    { unfold fresh. change (key (shard_of cps c)) with (shard_key sd c).
      destruct (object_dec _ _) as [X|NE]; [exact X|]. destruct (K (shard_key sd c)) as [X|[X _]]; [contradiction|exact X]. }
    unfold shard_key in K3. destruct (fresh (shard_of cps c)) eqn:EF.
    - exists b2. split; [split; [exact T1|]; split; [exact T2|]; rewrite K3; exact T3|].
      eapply shard_rel_ext; [|exact Q2]. intros c' _ Hs. now rewrite Hs, EF.
    - exists b1. split; [split; [exact S1|]; split; [exact S2|]; rewrite K3; exact S3|].
      eapply shard_rel_ext; [|exact Q1]. intros c' _ Hs. now rewrite Hs, EF. }
  intros after HA. refine (s3_sh_history_exists sok Hw M1 M2 HA HM (a := val d (fun c => if fresh (shard_of cps c) then C' c else C c)) _).
  intros x Hx. apply same_value_refl.
Qed.
End Sharded.
