(** Lemmas for interrupted writes. *)
From Verif Require Import M_Base M_Text M_Key M_Blocking M_View M_Bytes M_N5Header M_Format
  M_Mode M_Shard M_Dataset M_Sharded M_Access M_Pool M_Parallel M_Crash
  S_Array S_Grid S_Bytes S_Text S_Format S_Shard S_Dataset S_Access S_Sharded S_File S_Pool S_Parallel S_Crash
  P_Base P_Blocking P_Roi P_View P_Bytes P_Key P_Format P_Dataset P_Access P_Read P_History P_Shard P_Sharded P_Pool P_Foreach P_Parallel P_ParWrite P_ParSharded.
From Coq Require Import Sorted.
Import List ListNotations.
Local Open Scope list_scope.
Local Open Scope N_scope.

Lemma crash_bind p k : forall m m', crash (pbind p k) m m' ->
  crash p m m' \/ exists b, snd (run p m) = Ok b /\ crash (k b) (fst (run p m)) m'.
Proof.
  induction p as [o|f IH] using prog_ind2; intros m m' H.
  - destruct o as [b|e|]; cbn in H; [right; exists b; auto|left; exact H|left; exact H].
  - cbn [pbind] in H. inversion H as [|? ? ? H1|f' ? key a b i H1 H2]; subst.
    + left. constructor.
    + specialize (IH m). cbn [run]. destruct (f m) as [m1 p1] eqn:E. cbn [fst snd] in *. destruct (IH _ _ H1) as [X|X].
      * left. apply crash_later. rewrite E. exact X.
      * right. exact X.
    + left. apply crash_torn; [exact H1|]. destruct (f m) as [m1 p1]. exact H2.
Qed.

(** Code that reads and finally writes one file. *)
Inductive one_write (key : string) : code -> Prop :=
| ow_ret o : one_write key (Ret o)
| ow_read f : (forall m, fst (f m) = m) -> (forall m, one_write key (snd (f m))) -> one_write key (Act f)
| ow_erase o : one_write key (pset key None (Ret o))
| ow_write b o : one_write key (pset key (Some []) (pset key (Some b) (Ret o))).

Lemma one_write_frame key p : one_write key p -> forall m k, k <> key -> fst (fst (run p m)) k = fst m k.
Proof.
  assert (NE : forall k v st, k <> key -> set_key st key v k = st k).
  { intros k v st H. unfold set_key. destruct (String.eqb_spec k key); congruence. }
  induction 1 as [o|f H1 _ IH|o|b o]; intros m k Hk; cbn; auto.
  - specialize (H1 m). specialize (IH m). destruct (f m) as [m1 p1]. cbn [fst snd] in *. subst m1. now apply IH.
  - now rewrite !NE.
Qed.

Definition torn (key : string) (old new found : store) : Prop :=
  found key = old key \/ found key = new key \/
  exists file i, new key = Some file /\ found key = Some (firstn i file).

Lemma set_same st key v k : st key = v -> set_key st key v k = st k.
Proof. intros <-. unfold set_key. destruct (String.eqb_spec k key); congruence. Qed.

Lemma app_same A (a b : list A) i : a = a ++ b -> a ++ firstn i b = a.
Proof.
  intros H. assert (b = []) as ->. { apply (app_inv_head a). now rewrite app_nil_r. }
  now rewrite firstn_nil, app_nil_r.
Qed.

Lemma one_write_crash key p : one_write key p -> forall m m', crash p m m' ->
  (forall k, k <> key -> fst m' k = fst m k) /\ torn key (fst m) (fst (fst (run p m))) (fst m').
Proof.
  assert (NE : forall k v st, k <> key -> set_key st key v k = st k).
  { intros k v st H. unfold set_key. destruct (String.eqb_spec k key); congruence. }
  assert (EQ : forall v st, set_key st key v key = v).
  { intros v st. unfold set_key. now rewrite String.eqb_refl. }
  induction 1 as [o|f H1 _ IH|o|b o]; intros m m' H.
  - inversion H; subst. split; [reflexivity|now left].
  - specialize (H1 m). specialize (IH m). inversion H as [|? ? ? H2|f' ? key' a b i H2 H3]; subst.
    + split; [reflexivity|now left].
    + cbn [run]. destruct (f m) as [m1 p1]. cbn [fst snd] in *. subst m1. now apply IH.
    + rewrite H1, H2 in H3. injection H3 as H3. rewrite (app_same i H3).
      cbn [fst]. split; [intros k _|left]; now apply set_same.
  - unfold pset in *. inversion H as [|? ? ? H2|f' ? key' a b i H2 H3]; subst.
    + split; [reflexivity|now left].
    + cbn [fst snd] in H2. inversion H2; subst. cbn [fst run]. split; [intros k Hk; now apply NE|right; left; reflexivity].
    + cbn [fst snd] in H3. destruct (String.eqb_spec key' key) as [->|Hne].
      * rewrite EQ in H3. discriminate.
      * rewrite NE, H2 in H3 by exact Hne. injection H3 as H3. rewrite (app_same i H3). cbn [fst].
        split; [intros k _|left]; now apply set_same.
  - unfold pset in *. cbn [run fst snd]. inversion H as [|? ? ? H2|f' ? key' a b' i H2 H3]; subst.
    + split; [reflexivity|now left].
    + cbn [fst snd] in H2. clear H. inversion H2 as [|? ? ? H3|f' ? key' a b' i H3 H4]; subst.
      * cbn [fst]. split; [intros k Hk; now apply NE|]. right. right. exists b, 0%nat. now rewrite !EQ.
      * cbn [fst snd] in H3. inversion H3; subst. cbn [fst]. split; [intros k Hk; now rewrite !NE|right; left; reflexivity].
      * cbn [fst snd] in H3, H4. cbn [fst]. destruct (String.eqb_spec key' key) as [->|Hne].
        -- rewrite EQ in H3. injection H3 as <-. rewrite EQ in H4. injection H4 as ->. cbn [app].
           split; [intros k Hk; now rewrite !NE|]. right. right. exists b', i. now rewrite !EQ.
        -- rewrite !NE in H4 by exact Hne. rewrite NE in H3 by exact Hne. rewrite H3 in H4. injection H4 as H4. rewrite (app_same i H4).
           assert (X : forall k, set_key (set_key (fst m) key (Some [])) key' (Some a) k = set_key (fst m) key (Some []) k).
           { intros k. apply set_same. now rewrite NE. }
           split; [intros k Hk; now rewrite X, NE|]. right. right. exists b, 0%nat. rewrite X, !EQ. auto.
    + cbn [fst snd] in H3. cbn [fst]. destruct (String.eqb_spec key' key) as [->|Hne].
      * rewrite EQ in H3. injection H3 as H3. destruct a; [|discriminate H3]. destruct b'; [|discriminate H3]. rewrite firstn_nil. cbn [app].
        split; [intros k Hk; now rewrite NE|]. left. now rewrite EQ.
      * rewrite NE, H2 in H3 by exact Hne. injection H3 as H3. rewrite (app_same i H3).
        split; [intros k _|left]; now apply set_same.
Qed.

(** ** Loops *)
Section Loop.
Variables (A : Type) (f : A -> list cell -> code) (key : A -> string) (tid : nat).
Notation loop := (batch_prog (fun _ : nat => f) tid).

Lemma loop_frame l : (forall x buf, In x l -> one_write (key x) (f x buf)) -> forall buf m k, ~ In k (map key l) ->
  fst (fst (run (loop l buf) m)) k = fst m k.
Proof.
  induction l as [|x l IH]; intros H buf m k Hk; cbn [batch_prog]; [reflexivity|].
  rewrite run_bind. pose proof (one_write_frame (H x buf (or_introl eq_refl)) m (k := k)) as F.
  destruct (run (f x buf) m) as [m1 [b|e|]]; cbn [fst snd] in *; try (apply F; intros ->; apply Hk; now left).
  rewrite IH; [apply F; intros ->; apply Hk; now left| |intros Hi; apply Hk; now right].
  intros y buf' Hy. apply H. now right.
Qed.

Lemma loop_crash l : (forall x buf, In x l -> one_write (key x) (f x buf)) -> NoDup (map key l) -> forall buf m m',
  crash (loop l buf) m m' -> interrupted (map key l) (fst m) (fst (fst (run (loop l buf) m))) (fst m').
Proof.
  induction l as [|x l IH]; intros H ND buf m m' HC.
  - cbn in HC. inversion HC; subst. exists [], [], []. cbn. repeat split; try tauto. lia.
  - cbn [map batch_prog] in *. inversion ND as [|? ? NI ND']; subst. apply crash_bind in HC. rewrite run_bind.
    pose proof (one_write_frame (H x buf (or_introl eq_refl)) m) as F0.
    pose proof (one_write_crash (H x buf (or_introl eq_refl)) (m := m)) as C0.
    assert (H' : forall y buf', In y l -> one_write (key y) (f y buf')) by (intros; apply H; now right).
    destruct HC as [HC|(b & Eb & HC)].
    + destruct (C0 _ HC) as [C1 C2]. exists [], [key x], (map key l). split; [reflexivity|]. split; [cbn; lia|]. split; [cbn; tauto|].
      split; [intros k Hk; apply C1; intros ->; tauto|]. split; [|intros k Hk; apply C1; intros ->; apply Hk; now left].
      intros k [<-|[]]. destruct (run (f x buf) m) as [m1 [b|e|]]; cbn [fst snd] in *; try exact C2.
      rewrite (loop_frame H') by exact NI. exact C2.
    + destruct (run (f x buf) m) as [m1 o]. cbn [fst snd] in *. subst o. 
      destruct (IH H' ND' b m1 m' HC) as (be & cu & af & E & L & I1 & I2 & I3 & I4).
      assert (SUB : forall k, In k be \/ In k cu \/ In k af -> k <> key x).
      { intros k Hk ->. apply NI. rewrite E. rewrite !in_app_iff. tauto. }
      exists (key x :: be), cu, af. split; [cbn; now rewrite E|]. split; [exact L|]. split; [|split; [|split]].
      * intros k [<-|Hk]; [|now apply I1]. rewrite (loop_frame H') by exact NI. now apply I4.
      * intros k Hk. rewrite I2 by exact Hk. apply F0. apply SUB. tauto.
      * intros k Hk. destruct (I3 k Hk) as [X|X]; [|now right]. left. rewrite X. apply F0. apply SUB. tauto.
      * intros k Hk. rewrite I4; [apply F0; intros ->; apply Hk; now left|]. intros Hi. apply Hk. now right.
Qed.
End Loop.

(** ** Plain datasets *)
Section Plain.
Variable d : dataset.
Hypothesis ok : dataset_ok d.
Notation w := (t_width (d_type d)).
Notation s := (d_shape d).
Notation b := (d_chunks d).
Notation valid := (valid_chunk (d_shape d) (d_chunks d)).
Notation key := (chunk_key (d_key d)).

Lemma one_write_let A (o : outcome A) k key : (forall x, o = Ok x -> one_write key (k x)) -> one_write key (plet o k).
Proof. intros H. destruct o; cbn [plet]; [now apply H|constructor|constructor]. Qed.
Lemma one_write_read k0 k key : (forall x, one_write key (k x)) -> one_write key (pread k0 k).
Proof. intros H. unfold pread. apply ow_read; [reflexivity|]. intros m. apply H. Qed.
Lemma one_write_file kc k v o : one_write k (write_code kc k v (Ret o)).
Proof. unfold write_code. destruct (_ && _); [apply ow_ret|apply ow_write]. Qed.

Lemma one_write_unit src off n c buf : valid c -> one_write (key c) (write_unit_code d src off n c buf).
Proof.
  intros Hc. unfold write_unit_code. rewrite (handle_ok ok Hc). cbn [plet ch_key].
  apply one_write_read; intros f1. apply one_write_read; intros f2.
  apply one_write_let. intros buf' _. unfold write_chunk_code. destruct (negb _); [constructor|].
  rewrite (handle_ok ok Hc). cbn [plet ch_key]. apply one_write_let. intros _ _. apply one_write_let. intros ob _.
  destruct ob as [v|]; [apply one_write_file|apply ow_erase].
Qed.

Theorem crash_files src off n st st' : region_ok d off n -> write_crash d src off n st st' ->
  exists cs, StronglySorted lex_lt cs /\ (forall c, In c cs <-> overlaps s b off n c) /\
    interrupted (map key cs) st (fst (write_request d src off n st)) st'.
Proof.
  intros Hr HC. destruct (begin_request_sorted ok Hr) as (l & E & ND & _ & HI & SO).
  inversion HC as [reqs m' E' C]; subst. rewrite E in E'. injection E' as <-. exists l. split; [exact SO|]. split; [exact HI|].
  assert (V : forall c, In c l -> valid c) by (intros c Hc; eapply overlaps_valid, HI, Hc).
  assert (W : forall x buf, In x l -> one_write (key x) (write_unit_code d src off n x buf))
    by (intros x buf Hx; apply one_write_unit; auto).
  assert (NK : NoDup (map key l)).
  { apply FinFun.Injective_map_NoDup; [intros c c'; apply (key_inj ok)|exact ND]. }
  unfold foreach_sequential in C. pose proof (loop_crash W NK C) as I. cbn [fst] in I.
  unfold write_request, sbind, pure. rewrite E. unfold write_plain.
  destruct (@run_write_fold d ok src off n l V (repeat (d_fill d) (N.to_nat (prodw b))) st st (fun _ => []) (fun k => eq_refl))
    as (st2 & R & F). rewrite R in I. cbn [fst] in I.
  destruct I as (be & cu & af & I0 & I1 & I2 & I3 & I4 & I5). exists be, cu, af. split; [exact I0|]. split; [exact I1|].
  unfold sbind. destruct (foldS _ _ _ st) as [st3 o3]. cbn [fst snd] in *.
  assert (X : fst (match o3 with Ok a => (st3, Ok tt) | Throw e => (st3, Throw e) | UB => (st3, UB) end) = st3) by (destruct o3; reflexivity).
  split; [|split; [|split]]; auto.
  - intros k Hk. rewrite I2, F by exact Hk. destruct o3; reflexivity.
  - intros k Hk. destruct (I4 k Hk) as [Y|[Y|Y]]; [left; exact Y|right; left|right; right].
    + rewrite Y, F. destruct o3; reflexivity.
    + rewrite F in Y. destruct o3; exact Y.
Qed.

(** Reading uses the files of the chunks that overlap the region. *)
Lemma read_unit_key ov off n c st st' : valid c -> st (key c) = st' (key c) ->
  forall state, read_unit d st ov off n state c = read_unit d st' ov off n state c.
Proof.
  intros Hc E [buf out]. unfold read_unit, chunk_exists, read_raw_chunk, store_read. rewrite (handle_ok ok Hc). cbn [bind ch_key].
  now rewrite E.
Qed.
Lemma read_ext ov off st st' out : region_ok d off (v_shape ov) ->
  (forall c, overlaps s b off (v_shape ov) c -> st (key c) = st' (key c)) ->
  read_subarray d st ov off out = read_subarray d st' ov off out.
Proof.
  intros Hr E. unfold read_subarray. destruct (begin_request_ok ok Hr) as (l & El & _ & _ & HI). rewrite El. cbn [bind].
  unfold read_plain. rewrite (@foldM_ext _ _ (read_unit d st ov off (v_shape ov)) (read_unit d st' ov off (v_shape ov))); [reflexivity|].
  intros c Hc state. apply HI in Hc. apply read_unit_key; [eapply overlaps_valid, Hc|auto].
Qed.

Lemma in_key cs c : In (key c) (map key cs) <-> In c cs.
Proof.
  rewrite in_map_iff. split; [|eauto]. intros (c' & E & Hi). apply (key_inj ok) in E. now subst.
Qed.

(** Which chunks are new. *)
Lemma interrupted_chunks cs old new found : interrupted (map key cs) old new found -> NoDup cs ->
  exists (fresh : shape -> bool) (cut : option shape),
    (forall c, cut = Some c -> In c cs) /\ (forall c, fresh c = true -> In c cs) /\
    (forall c, cut <> Some c -> found (key c) = if fresh c then new (key c) else old (key c)).
Proof.
  intros (be & cu & af & E & L & I1 & I2 & I3 & I4) ND.
  assert (D : forall c l, {In (key c) l} + {~ In (key c) l}) by (intros; apply in_dec, string_dec).
  exists (fun c => if D c be then true else false).
  destruct cu as [|k [|? ?]]; [|..|cbn in L; lia].
  - exists None. split; [discriminate|]. split.
    + intros c Hc. apply in_key. rewrite E. destruct (D c be); [|discriminate]. apply in_app_iff. now left.
    + intros c _. destruct (D c be) as [Hb|Hb]; [now apply I1|]. destruct (D c af) as [Ha|Ha]; [now apply I2|].
      apply I4. rewrite E. rewrite !in_app_iff. cbn. tauto.
  - assert (exists c0, In c0 cs /\ key c0 = k) as (c0 & Hc0 & <-).
    { assert (In k (map key cs)) as H by (rewrite E, !in_app_iff; cbn; tauto). apply in_map_iff in H as (c0 & H1 & H2). eauto. }
    exists (Some c0). split; [now intros c [= <-]|]. split.
    + intros c Hc. apply in_key. rewrite E. destruct (D c be); [|discriminate]. apply in_app_iff. now left.
    + intros c Hne. destruct (D c be) as [Hb|Hb]; [now apply I1|]. destruct (D c af) as [Ha|Ha]; [now apply I2|].
      apply I4. rewrite E. rewrite !in_app_iff. cbn. intros [H|[[H|[]]|H]]; try tauto. apply (key_inj ok) in H. congruence.
Qed.

(** Reading when each chunk but one is as before or as after a write. *)
Lemma mixed_array ops src off n st st1 st2 (fresh : shape -> bool) (cut : option shape) :
  can_write (d_mode d) = true -> Forall (array_op_ok d) ops -> array_op_ok d (AWrite off n src) ->
  (forall c, valid c -> st (key c) = None) -> run_array_ops d ops st = (st1, Ok tt) ->
  (forall c, cut <> Some c -> st2 (key c) = if fresh c then fst (write_request d src off n st1) (key c) else st1 (key c)) ->
  forall ov off' out, region_ok d off' (v_shape ov) -> out_view_ok ov (lenN out) ->
    (forall c, cut = Some c -> ~ overlaps s b off' (v_shape ov) c) ->
    exists out', read_subarray d st2 ov off' out = Ok out' /\ lenN out' = lenN out /\
      forall i, in_shape (v_shape ov) i -> exists v,
        let expected := apply_ops d (ops ++ if fresh (chunk_of b (vadd off' i)) then [AWrite off n src] else [])
                          (fun _ => d_fill d) (vadd off' i) in
        getN out' (v_off ov + lin (v_strides ov) i) = Ok v /\ same_value d v expected /\
        (t_float (d_type d) = false -> v = expected).
Proof.
  intros Hm Hops Hop Hst Hrun K3. pose proof Hop as [Hreg Hsrc].
  destruct (run_array_ops_spec ok Hm Hops (holds_empty Hst) (@represents_empty d)) as (st1' & C & E & HO & HR & _).
  rewrite Hrun in E. injection E as <-.
  destruct (run_array_op_spec ok (o := AWrite off n src) Hm Hop HO HR) as (st3 & C' & E & HO' & HR' & _). cbn [run_array_op] in E.
  rewrite E in K3. cbn [fst] in K3.
  intros ov off' out Hreg' Hov Hcut.
  set (C2 := fun c => if fresh c then C' c else C c).
  set (st4 := fun k => match cut with Some c => if String.eqb k (key c) then (if fresh c then st3 k else st1 k) else st2 k | None => st2 k end).
  assert (H4 : forall c, st4 (key c) = if fresh c then st3 (key c) else st1 (key c)).
  { intros c. unfold st4. destruct cut as [c0|]; [|apply K3; discriminate].
    destruct (String.eqb_spec (key c) (key c0)) as [Eq|Ne]; [apply (key_inj ok) in Eq; now subst|]. apply K3. congruence. }
  assert (HO4 : holds d st4 C2).
  { intros c Hc. specialize (HO c Hc). specialize (HO' c Hc). unfold C2, chunk_holds in *. rewrite H4. destruct (fresh c); assumption. }
  destruct (read_subarray_spec ok Hreg' HO4 Hov) as (out' & E2 & L & A & _).
  exists out'. split; [|split; [exact L|]].
  { rewrite <- E2. apply read_ext; [exact Hreg'|]. intros c Ho. rewrite H4. apply K3. intros Hc. now apply (Hcut c Hc). }
  intros i Hi. exists (val d C2 (vadd off' i)). cbv zeta. split; [now apply A|].
  assert (Hx : in_shape s (vadd off' i)).
  { eapply region_in_shape; [apply Hreg'|]. apply sub_in_box; [|exact Hi].
    destruct Hreg' as [Hr _]. unfold valid_region in Hr; apply all3_length in Hr; lia. }
  assert (OK2 : forall b0 : bool, Forall (array_op_ok d) (ops ++ if b0 then [AWrite off n src] else [])).
  { intros b0. apply Forall_app. split; [exact Hops|]. destruct b0; [apply Forall_cons; [exact Hop|constructor]|constructor]. }
  assert (SV : same_value d (val d C2 (vadd off' i))
    (apply_ops d (ops ++ if fresh (chunk_of b (vadd off' i)) then [AWrite off n src] else []) (fun _ => d_fill d) (vadd off' i))).
  { specialize (HR _ Hx). specialize (HR' _ Hx). unfold val, C2 in *. destruct (fresh (chunk_of b (vadd off' i))); [|now rewrite app_nil_r].
    assert (X : forall l a x, apply_ops d (l ++ [AWrite off n src]) a x = apply_op d (AWrite off n src) (apply_ops d l a) x).
    { clear. induction l as [|o l IH]; intros a x; [reflexivity|]. cbn [app apply_ops]. apply IH. }
    rewrite X. exact HR'. }
  split; [exact SV|]. intros Hf. apply (same_value_int ok); auto.
  - eapply (val_cell ok); eauto.
  - apply (apply_ops_cells ok); auto. intros; apply (do_fill ok).
  - eapply (val_cell ok); eauto.
  - apply (apply_ops_cells ok); auto. intros; apply (do_fill ok).
Qed.
Theorem interrupted_array ops src off n st st1 st2 : can_write (d_mode d) = true -> Forall (array_op_ok d) ops ->
  array_op_ok d (AWrite off n src) ->
  (forall c, valid c -> st (key c) = None) ->
  run_array_ops d ops st = (st1, Ok tt) -> (exists cs, StronglySorted lex_lt cs /\ (forall c, In c cs <-> overlaps s b off n c) /\
    interrupted (map key cs) st1 (fst (write_request d src off n st1)) st2) ->
  exists (fresh : shape -> bool) (cut : option shape),
    (forall c, cut = Some c -> overlaps s b off n c) /\ (forall c, fresh c = true -> overlaps s b off n c) /\
    forall ov off' out, region_ok d off' (v_shape ov) -> out_view_ok ov (lenN out) ->
      (forall c, cut = Some c -> ~ overlaps s b off' (v_shape ov) c) ->
      exists out', read_subarray d st2 ov off' out = Ok out' /\ lenN out' = lenN out /\
        forall i, in_shape (v_shape ov) i -> exists v,
          let expected := apply_ops d (ops ++ if fresh (chunk_of b (vadd off' i)) then [AWrite off n src] else [])
                            (fun _ => d_fill d) (vadd off' i) in
          getN out' (v_off ov + lin (v_strides ov) i) = Ok v /\ same_value d v expected /\
          (t_float (d_type d) = false -> v = expected).
Proof.
  intros Hm Hops Hop Hst Hrun (cs & SO & HI & I).
  destruct (interrupted_chunks I) as (fresh & cut & K1 & K2 & K3).
  { clear - SO. induction SO as [|a l H1 IH H2]; constructor; auto.
    intros Hin. rewrite Forall_forall in H2. specialize (H2 _ Hin). clear - H2.
    remember a as a' eqn:E in H2 at 1. assert (H : a' = a) by auto. clear E. induction H2; [injection H; lia|injection H; auto]. }
  exists fresh, cut. split; [intros c Hc; apply HI; auto|]. split; [intros c Hc; apply HI; auto|].
  apply (@mixed_array ops src off n st st1 st2 fresh cut); auto.
Qed.
Theorem crash_array ops src off n st st1 st2 : can_write (d_mode d) = true -> Forall (array_op_ok d) ops ->
  array_op_ok d (AWrite off n src) ->
  (forall c, valid c -> st (key c) = None) ->
  run_array_ops d ops st = (st1, Ok tt) -> write_crash d src off n st1 st2 ->
  exists (fresh : shape -> bool) (cut : option shape),
    (forall c, cut = Some c -> overlaps s b off n c) /\ (forall c, fresh c = true -> overlaps s b off n c) /\
    forall ov off' out, region_ok d off' (v_shape ov) -> out_view_ok ov (lenN out) ->
      (forall c, cut = Some c -> ~ overlaps s b off' (v_shape ov) c) ->
      exists out', read_subarray d st2 ov off' out = Ok out' /\ lenN out' = lenN out /\
        forall i, in_shape (v_shape ov) i -> exists v,
          let expected := apply_ops d (ops ++ if fresh (chunk_of b (vadd off' i)) then [AWrite off n src] else [])
                            (fun _ => d_fill d) (vadd off' i) in
          getN out' (v_off ov + lin (v_strides ov) i) = Ok v /\ same_value d v expected /\
          (t_float (d_type d) = false -> v = expected).
Proof.
  intros Hm Hops Hop Hst Hrun HC. apply (@interrupted_array ops src off n st st1 st2 Hm Hops Hop Hst Hrun). apply (crash_files (proj1 Hop) HC).
Qed.
End Plain.

(** ** Sharded datasets *)
Section Sharded.
Variable sd : sharded.
Hypothesis sok : sharded_ok sd.
Notation d := (sd_base sd).
Notation s := (d_shape (sd_base sd)).
Notation b := (d_chunks (sd_base sd)).
Notation cps := (sd_cps sd).
Notation ok := (so_base sok).
Notation key := (chunk_key (d_key (sd_base sd))).

Lemma one_write_shard src off n g buf : length (fst g) = length b -> one_write (key (fst g)) (shard_write_unit_code sd src off n g buf).
Proof.
  intros L. unfold shard_write_unit_code. destruct (shard_handle_ok sok L) as [bs E]. rewrite E. cbn [plet ch_key].
  apply one_write_read; intros f. apply one_write_let. intros r _. unfold write_blobs_code. destruct (negb _); [apply ow_ret|].
  rewrite E. cbn [plet ch_key]. destruct (all_slots_empty _); [apply ow_erase|apply one_write_file].
Qed.

Theorem crash_shards src off n st st' : region_ok d off n -> sh_write_crash sd src off n st st' ->
  exists ks, NoDup ks /\ (forall k, In k ks <-> exists c, overlaps s b off n c /\ shard_of cps c = k) /\
    interrupted (map key ks) st (fst (sh_write_request sd src off n st)) st'.
Proof.
  intros Hr HC. destruct (request_groups sok Hr) as (reqs & gs & E1 & E2 & E3 & HG & ND1 & HM & ND).
  inversion HC as [gs' m' E' C]; subst. rewrite E1 in E'. cbn [bind] in E'.
  destruct (can_write (d_mode d)) eqn:Hw; cbn [negb] in E'; [|discriminate]. rewrite E2 in E'. cbn [bind] in E'. rewrite E3 in E'. injection E' as <-.
  exists (map fst gs). split; [exact ND|]. split.
  { intros k. split.
    - intros Hk. apply in_map_iff in Hk as ([k' cs] & <- & Hg). destruct (HG _ _ Hg) as [NE HO]. destruct cs as [|c cs]; [congruence|].
      exists c. apply HO. now left.
    - intros (c & Ho & <-). apply HM in Ho. apply in_concat in Ho as (cs & Hcs & Hc). apply in_map_iff in Hcs as ([k cs'] & <- & Hg).
      destruct (HG _ _ Hg) as [_ HO]. destruct (HO c Hc) as [_ ->]. apply in_map_iff. exists (k, cs'). auto. }
  assert (GL : forall g, In g gs -> length (fst g) = length b).
  { intros [k cs] Hg. destruct (HG k cs Hg) as [NE HO]. cbn [fst]. destruct cs as [|c cs]; [congruence|]. destruct (HO c (or_introl eq_refl)) as [Ho <-].
    apply (shard_of_len sok). apply valid_len. eapply overlaps_valid; eauto. }
  assert (W : forall x buf, In x gs -> one_write (key (fst x)) (shard_write_unit_code sd src off n x buf))
    by (intros x buf Hx; apply one_write_shard; auto).
  assert (NK : NoDup (map (fun g => key (fst g)) gs)).
  { rewrite <- (map_map fst key). apply FinFun.Injective_map_NoDup; [intros c c'; apply (key_inj ok)|exact ND]. }
  unfold foreach_sequential in C. pose proof (loop_crash (f := shard_write_unit_code sd src off n) (key := fun g => key (fst g)) W NK C) as I. cbn [fst] in I.
  rewrite map_map.
  unfold sh_write_request, write_sharded, sbind, pure. rewrite E1, Hw. cbn [negb]. rewrite E2, E3.
  destruct (@run_shard_write_fold sd sok src off n gs Hw GL (repeat (d_fill d) (N.to_nat (prodw b))) st st (fun _ => []) (fun k => eq_refl))
    as (st2 & R & F). rewrite R in I. cbn [fst] in I.
  destruct I as (be & cu & af & I0 & I1 & I2 & I3 & I4 & I5). exists be, cu, af. split; [exact I0|]. split; [exact I1|].
  destruct (foldS _ _ _ st) as [st3 o3]. cbn [fst snd] in *.
  split; [|split; [|split]]; auto.
  - intros k Hk. rewrite I2, F by exact Hk. destruct o3; reflexivity.
  - intros k Hk. destruct (I4 k Hk) as [Y|[Y|Y]]; [left; exact Y|right; left|right; right].
    + rewrite Y, F. destruct o3; reflexivity.
    + rewrite F in Y. destruct o3; exact Y.
Qed.

(** Reading when each shard but one is as before or as after a write. *)
Lemma mixed_sharded ops src off n st st1 st2 (fresh : shape -> bool) (cut : option shape) :
  can_write (d_mode d) = true -> Forall (array_op_ok d) ops -> array_op_ok d (AWrite off n src) ->
  (forall c, valid_chunk s b c -> st (shard_key sd c) = None) -> run_sharded_ops sd ops st = (st1, Ok tt) ->
  (forall k, cut <> Some k -> st2 (key k) = if fresh k then fst (sh_write_request sd src off n st1) (key k) else st1 (key k)) ->
  forall ov off' out, region_ok d off' (v_shape ov) -> out_view_ok ov (lenN out) ->
    (forall c, overlaps s b off' (v_shape ov) c -> cut <> Some (shard_of cps c)) ->
    exists out', sh_read_subarray sd st2 ov off' out = Ok out' /\ lenN out' = lenN out /\
      forall i, in_shape (v_shape ov) i -> exists v,
        let expected := apply_ops d (ops ++ if fresh (shard_of cps (chunk_of b (vadd off' i))) then [AWrite off n src] else [])
                          (fun _ => d_fill d) (vadd off' i) in
        getN out' (v_off ov + lin (v_strides ov) i) = Ok v /\ same_value d v expected /\
        (t_float (d_type d) = false -> v = expected).
Proof.
  intros Hm Hops Hop Hst Hrun K3. pose proof Hop as [Hreg Hsrc].
  destruct (so_blob sok) as (m & M1 & M2).
  set (T := fun _ : shape => True). assert (HT : forall k, T k) by (intros; exact Logic.I).
  destruct (@run_sharded_ops_spec sd sok m M1 M2 (own_blob sd) (@own_blob_ok sd) own_shard (@own_shard_ok sd) T ops HT Hm Hops st _ _ (@holds_sh_empty sd sok m M1 M2 (own_blob sd) (@own_blob_ok sd) own_shard (@own_shard_ok sd) T st Hst) (@represents_empty (sd_base sd)))
    as (st1' & C & E & HO & HR & _).
  rewrite Hrun in E. injection E as <-.
  destruct (@run_sharded_op_spec sd sok m M1 M2 (own_blob sd) (@own_blob_ok sd) own_shard (@own_shard_ok sd) T (AWrite off n src) _ _ _ HT Hm Hop HO HR)
    as (st3 & C' & E & HO' & HR' & _). cbn [run_sharded_op] in E.
  rewrite E in K3. cbn [fst] in K3.
  intros ov off' out Hreg' Hov Hcut.
  set (C2 := fun c => if fresh (shard_of cps c) then C' c else C c).
  set (G := fun k => cut <> Some k).
  assert (HO2 : @holds_sh sd m (own_blob sd) own_shard G st2 C2).
  { intros c Hc HG. destruct (HO c Hc (HT _)) as (bl & S1 & R1). destruct (HO' c Hc (HT _)) as (bl' & S1' & R1').
    exists (if fresh (shard_of cps c) then bl' else bl). specialize (K3 _ HG).
    destruct (fresh (shard_of cps c)) eqn:Fr.
    - split; [unfold shard_state in *; rewrite K3; exact S1'|]. eapply shard_rel_ext; [|exact R1'].
      intros c' _ E'. unfold C2. now rewrite E', Fr.
    - split; [unfold shard_state in *; rewrite K3; exact S1|]. eapply shard_rel_ext; [|exact R1].
      intros c' _ E'. unfold C2. now rewrite E', Fr. }
  destruct (@sh_read_subarray_spec sd sok m M1 M2 (own_blob sd) (@own_blob_ok sd) own_shard (@own_shard_ok sd) G ov off' st2 C2 out Hreg' Hcut HO2 Hov)
    as (out' & E2 & L & A & _).
  exists out'. split; [exact E2|]. split; [exact L|].
  intros i Hi. exists (val d C2 (vadd off' i)). cbv zeta. split; [now apply A|].
  assert (Hx : in_shape s (vadd off' i)).
  { eapply region_in_shape; [apply Hreg'|]. apply sub_in_box; [|exact Hi].
    destruct Hreg' as [Hr _]. unfold valid_region in Hr; apply all3_length in Hr; lia. }
  assert (OK2 : forall b0 : bool, Forall (array_op_ok d) (ops ++ if b0 then [AWrite off n src] else [])).
  { intros b0. apply Forall_app. split; [exact Hops|]. destruct b0; [apply Forall_cons; [exact Hop|constructor]|constructor]. }
  assert (SV : same_value d (val d C2 (vadd off' i))
    (apply_ops d (ops ++ if fresh (shard_of cps (chunk_of b (vadd off' i))) then [AWrite off n src] else []) (fun _ => d_fill d) (vadd off' i))).
  { specialize (HR _ Hx). specialize (HR' _ Hx). unfold val, C2 in *. destruct (fresh (shard_of cps (chunk_of b (vadd off' i)))); [|now rewrite app_nil_r].
    assert (X : forall l a x, apply_ops d (l ++ [AWrite off n src]) a x = apply_op d (AWrite off n src) (apply_ops d l a) x).
    { clear. induction l as [|o l IH]; intros a x; [reflexivity|]. cbn [app apply_ops]. apply IH. }
    rewrite X. exact HR'. }
  split; [exact SV|]. intros Hf.
  assert (HG : G (shard_of cps (chunk_of b (vadd off' i)))).
  { apply Hcut. exists (vadd off' i). split; [|apply (elem_chunk ok), Hx]. apply sub_in_box; [|exact Hi].
    destruct Hreg' as [Hr _]. unfold valid_region in Hr; apply all3_length in Hr; lia. }
  destruct (@val_cell_sh sd sok m (own_blob sd) own_shard G st2 C2 _ HG HO2 Hx) as [V1 V2].
  destruct (@apply_ops_cells (sd_base sd) ok _ (OK2 (fresh (shard_of cps (chunk_of b (vadd off' i))))) (fun _ => d_fill (sd_base sd)) (fun _ _ => do_fill ok) _ Hx) as [A1 A2].
  eapply same_value_int; eauto using (so_base sok).
Qed.

Lemma interrupted_shards ks old new found : interrupted (map key ks) old new found ->
  exists (fresh : shape -> bool) (cut : option shape),
    (forall k, cut = Some k -> In k ks) /\ (forall k, fresh k = true -> In k ks) /\
    (forall k, cut <> Some k -> found (key k) = if fresh k then new (key k) else old (key k)).
Proof.
  intros (be & cu & af & E & L & I1 & I2 & I3 & I4).
  assert (D : forall c l, {In (key c) l} + {~ In (key c) l}) by (intros; apply in_dec, string_dec).
  assert (IK : forall c, In (key c) (map key ks) <-> In c ks) by (intros c; apply (in_key ok)).
  exists (fun c => if D c be then true else false).
  destruct cu as [|k [|? ?]]; [|..|cbn in L; lia].
  - exists None. split; [discriminate|]. split.
    + intros c Hc. apply IK. rewrite E. destruct (D c be); [|discriminate]. apply in_app_iff. now left.
    + intros c _. destruct (D c be) as [Hb|Hb]; [now apply I1|]. destruct (D c af) as [Ha|Ha]; [now apply I2|].
      apply I4. rewrite E. rewrite !in_app_iff. cbn. tauto.
  - assert (exists c0, In c0 ks /\ key c0 = k) as (c0 & Hc0 & <-).
    { assert (In k (map key ks)) as H by (rewrite E, !in_app_iff; cbn; tauto). apply in_map_iff in H as (c0 & H1 & H2). eauto. }
    exists (Some c0). split; [now intros c [= <-]|]. split.
    + intros c Hc. apply IK. rewrite E. destruct (D c be); [|discriminate]. apply in_app_iff. now left.
    + intros c Hne. destruct (D c be) as [Hb|Hb]; [now apply I1|]. destruct (D c af) as [Ha|Ha]; [now apply I2|].
      apply I4. rewrite E. rewrite !in_app_iff. cbn. intros [H|[[H|[]]|H]]; try tauto. apply (key_inj ok) in H. congruence.
Qed.

Theorem crash_shard_array ops src off n st st1 st2 : can_write (d_mode d) = true -> Forall (array_op_ok d) ops ->
  array_op_ok d (AWrite off n src) ->
  (forall c, valid_chunk s b c -> st (shard_key sd c) = None) -> run_sharded_ops sd ops st = (st1, Ok tt) ->
  sh_write_crash sd src off n st1 st2 ->
  exists (fresh : shape -> bool) (cut : option shape),
    (forall k, cut = Some k \/ fresh k = true -> exists c, overlaps s b off n c /\ shard_of cps c = k) /\
    forall ov off' out, region_ok d off' (v_shape ov) -> out_view_ok ov (lenN out) ->
      (forall c, overlaps s b off' (v_shape ov) c -> cut <> Some (shard_of cps c)) ->
      exists out', sh_read_subarray sd st2 ov off' out = Ok out' /\ lenN out' = lenN out /\
        forall i, in_shape (v_shape ov) i -> exists v,
          let expected := apply_ops d (ops ++ if fresh (shard_of cps (chunk_of b (vadd off' i))) then [AWrite off n src] else [])
                            (fun _ => d_fill d) (vadd off' i) in
          getN out' (v_off ov + lin (v_strides ov) i) = Ok v /\ same_value d v expected /\
          (t_float (d_type d) = false -> v = expected).
Proof.
  intros Hm Hops Hop Hst Hrun HC. destruct (crash_shards (proj1 Hop) HC) as (ks & ND & HI & I).
  destruct (interrupted_shards I) as (fresh & cut & K1 & K2 & K3). exists fresh, cut.
  split; [intros k [Hk|Hk]; apply HI; auto|]. apply (@mixed_sharded ops src off n st st1 st2 fresh cut); auto.
Qed.
End Sharded.

(** ** Crashes for examples *)
Fixpoint after_steps (k : nat) (p : code) (m : pmem) : code * pmem :=
  match k, p with
  | S k', Act f => after_steps k' (snd (f m)) (fst (f m))
  | _, _ => (p, m)
  end.
Lemma crash_after k : forall p m m', crash (fst (after_steps k p m)) (snd (after_steps k p m)) m' -> crash p m m'.
Proof.
  induction k as [|k IH]; intros p m m' H; [exact H|]. destruct p as [o|f]; [exact H|]. cbn [after_steps] in H.
  apply crash_later. now apply IH.
Qed.
(** [k] accesses and [i] bytes of the next one, which writes the empty file [key]. *)
Definition cut_at (k i : nat) (key : string) (p : code) (m : pmem) : option pmem :=
  match after_steps k p m with
  | (Act f, m1) =>
      match fst m1 key, fst (fst (f m1)) key with
      | Some [], Some b => Some (set_key (fst m1) key (Some (firstn i b)), snd m1)
      | _, _ => None
      end
  | _ => None
  end.
Lemma crash_cut k i key p m m' : cut_at k i key p m = Some m' -> crash p m m'.
Proof.
  unfold cut_at. intros H. apply (@crash_after k). destruct (after_steps k p m) as [q m1]. cbn [fst snd].
  destruct q as [|f]; [discriminate|]. destruct (fst m1 key) as [[|]|] eqn:E1; try discriminate.
  destruct (fst (fst (f m1)) key) as [x|] eqn:E2; [|discriminate]. injection H as <-.
  exact (@crash_torn f m1 key [] x i E1 E2).
Qed.
