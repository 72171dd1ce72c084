(** removeTrivialChunks and removeDataset. *)
From Coq Require Import Permutation.
From Verif Require Import M_Base M_Text M_Key M_Blocking M_Bytes M_N5Header M_Format M_Mode M_Shard M_Dataset M_Sharded
  M_View M_Access M_Pool M_Parallel M_ForEach M_Functions S_Array S_Grid S_Bytes S_Text S_Format S_Shard S_Dataset S_Access S_Sharded
  S_Pool S_Functions
  P_Base P_Bytes P_Blocking P_View P_Format P_Dataset P_Access P_Shard P_Sharded P_ShardedApi P_Pool P_Foreach P_ForEach P_PoolSim P_Collect
  P_Read P_Parallel P_ParWrite P_Functions.
Import List ListNotations.
Local Open Scope list_scope.
Local Open Scope N_scope.

Definition fget (m : store * unit) (k : string) : option bytes := fst m k.
Definition only_key (k : string) (l : string) : Prop := l = k.
Notation fconf k := (@confined (store * unit) unit string (option bytes) fget (only_key k) (fun _ => False)).

Lemma fconf_lift A k (o : outcome A) f : (forall a, o = Ok a -> fconf k (f a)) -> fconf k (plift o f).
Proof. intros H. destruct o; cbn [plift]; [auto|constructor..]. Qed.
Lemma fconf_read k f : (forall v, fconf k (f v)) -> fconf k (fread k f).
Proof.
  intros H. constructor; cbn [fst snd]; auto. intros m m' A. assert (E : fst m k = fst m' k) by (apply (A k); now left).
  split; [congruence|auto].
Qed.
Lemma fconf_put k v p : fconf k p -> fconf k (fput k v p).
Proof.
  intros H. constructor; cbn [fst snd]; auto.
  - intros m m' _. split; [reflexivity|]. intros l E. unfold fget, set_key in *. cbn [fst] in *. now destruct (String.eqb l k).
  - intros m l N. unfold fget, set_key. cbn [fst]. destruct (String.eqb_spec l k); [|reflexivity]. now destruct N.
Qed.

(** Tasks that each access the file of one chunk. *)
Section Chunkwise.
Variable d : dataset.
Hypothesis ok : dataset_ok d.
Notation s := (d_shape d).
Notation b := (d_chunks d).
Notation valid := (valid_chunk (d_shape d) (d_chunks d)).
Notation key := (chunk_key (d_key d)).
Hypothesis small : prod (chunk_counts s b) < W64.
Variable code : shape -> fcode unit.
Variable st : store.
Hypothesis conf : forall c, valid c -> fconf (key c) (code c).
Hypothesis safe : forall c, valid c -> snd (run (code c) (st, tt)) <> UB.

Definition done (c : shape) : option bytes := fst (fst (run (code c) (st, tt))) (key c).
Definition result (c : shape) : outcome unit := snd (run (code c) (st, tt)).

Lemma visit_tasks l bl : (forall k, In k l <-> valid k) -> NoDup l ->
  (forall i, (i < length l)%nat -> id_to_coord (b_strides bl) (N.of_nat i) = Ok (nth i l [])) ->
  tasks_ok fget (length l) (fun i (_ : nat) (_ : unit) => plift (id_to_coord (b_strides bl) (N.of_nat i)) code)
    (fun _ => True) (fun i => only_key (key (nth i l []))) (fun _ => False) (st, tt)
    (fun i => fst (run (code (nth i l [])) (st, tt))) (fun i => result (nth i l [])).
Proof using ok conf safe.
  intros Hl Nd Hi. assert (V : forall i, (i < length l)%nat -> valid (nth i l [])) by (intros i L; apply Hl, nth_In, L). split.
  - intros i j k Li Lj N -> E. apply (key_inj ok) in E. apply N. eapply NoDup_nth; eauto.
  - auto.
  - intros i tid un Li. rewrite (Hi i Li). cbn [plift]. auto.
  - intros i tid un Li _. rewrite (Hi i Li). cbn [plift]. split; [intros k _; reflexivity|].
    unfold result. pose proof (safe (V i Li)). destruct (snd (run (code (nth i l [])) (st, tt))); cbn; auto.
Qed.

Theorem chunkwise threads est st1 r :
  for_each_chunk s b threads est (fun _ => True) tt (st, tt) (fun _ c _ => code c) (st1, tt) r ->
  r <> UB /\
  (forall k, (forall c, valid c -> k <> key c) -> st1 k = st k) /\
  (forall c, valid c -> st1 (key c) = done c \/ st1 (key c) = st (key c)) /\
  (r = Ok tt -> forall c, valid c -> result c = Ok tt /\ st1 (key c) = done c) /\
  ((forall c, valid c -> result c = Ok tt) -> r = Ok tt).
Proof using ok small conf safe.
  intros [bl Ebl H]. pose proof (do_dims ok) as D. destruct (chunks_by_id D Ebl small) as (l & Ll & Nd & Hl & Hid). rewrite <- Ll in H.
  pose proof (visit_tasks Hl Nd Hid) as T.
  assert (V : forall i, (i < length l)%nat -> valid (nth i l [])) by (intros i L; apply Hl, nth_In, L).
  destruct (foreach_run_result T (fun _ x => x) Logic.I H) as (Er & Ho & bss & Eb & _ & E1 & E2).
  assert (Idx : forall c, valid c -> exists i, (i < length l)%nat /\ nth i l [] = c).
  { intros c Hc. apply Hl in Hc. destruct (In_nth l c [] Hc) as (i & L & E). eauto. }
  assert (Both : forall i, (i < length l)%nat -> st1 (key (nth i l [])) = done (nth i l []) \/ st1 (key (nth i l [])) = st (key (nth i l []))).
  { intros i L. assert (Q : In i (concat bss)) by (rewrite Eb; apply in_seq; lia). apply in_concat in Q. destruct Q as (bs & B1 & B2).
    destruct (in_dec Nat.eq_dec i (started (fun i => result (nth i l [])) bs)) as [S|S].
    - left. apply (E1 bs i B1 S). reflexivity.
    - right. apply (E2 bs i B1 B2 S). reflexivity. }
  assert (FE : forall rs, (forall o, In o rs -> o <> UB) -> first_error rs = None -> forall o, In o rs -> o = Ok tt).
  { induction rs as [|[[]|e|] rs IH]; intros Hn Hf o Ho'; [destruct Ho'|..].
    - destruct Ho' as [<-|Ho']; [reflexivity|]. apply IH; auto. intros; apply Hn; now right.
    - discriminate.
    - exfalso. apply (Hn UB); [now left|reflexivity]. }
  assert (FN : forall rs, (forall o, In o rs -> o = Ok tt) -> first_error rs = None).
  { induction rs as [|o rs IH]; intros Hn; [reflexivity|]. rewrite (Hn o (or_introl eq_refl)). cbn. apply IH. intros; apply Hn; now right. }
  split; [|split; [|split; [|split]]].
  - rewrite Er. unfold thrown. destruct (first_error _); discriminate.
  - intros k Hk. apply (Ho k). intros i L E. apply (Hk (nth i l [])); [auto|exact E].
  - intros c Hc. destruct (Idx c Hc) as (i & L & <-). auto.
  - intros ->. assert (F0 : first_error (map (fun i => result (nth i l [])) (seq 0 (length l))) = None).
    { unfold thrown in Er. destruct (first_error _); [discriminate|reflexivity]. }
    assert (A : forall i, (i < length l)%nat -> result (nth i l []) = Ok tt).
    { intros i L. apply (fun X => FE _ X F0).
      { intros o Q. apply in_map_iff in Q. destruct Q as (j & <- & Q). apply in_seq in Q. apply safe, V. lia. }
      apply in_map_iff. exists i. split; [reflexivity|]. apply in_seq. lia. }
    intros c Hc. destruct (Idx c Hc) as (i & L & <-). split; [auto|].
    destruct (foreach_run_ok T (fun _ x => x) Logic.I H A) as (_ & A2 & _). apply (A2 i L). reflexivity.
  - intros A. rewrite Er, FN; [reflexivity|]. intros o Q. apply in_map_iff in Q. destruct Q as (j & <- & Q). apply in_seq in Q. apply A, V. lia.
Qed.

Theorem chunkwise_exists threads est : exists st1 r,
  for_each_chunk s b threads est (fun _ => True) tt (st, tt) (fun _ c _ => code c) (st1, tt) r.
Proof using ok small conf safe.
  pose proof (do_dims ok) as D. pose proof (mk_blocking_ok D) as Ebl. destruct (chunks_by_id D Ebl small) as (l & Ll & Nd & Hl & Hid).
  pose proof (visit_tasks Hl Nd Hid) as T.
  destruct (foreach_run_exists (junk := fun _ => True) T (fun _ x => x) (ex_intro (fun _ : unit => True) tt Logic.I) threads est (b0 := tt) Logic.I) as ([st1 []] & r & H).
  exists st1, r. econstructor; [exact Ebl|]. rewrite <- Ll. exact H.
Qed.
End Chunkwise.

Section Trivial.
Variable d : dataset.
Hypothesis ok : dataset_ok d.
Notation s := (d_shape d).
Notation b := (d_chunks d).
Notation t := (d_type d).
Notation valid := (valid_chunk (d_shape d) (d_chunks d)).
Notation key := (chunk_key (d_key d)).
Hypothesis small : prod (chunk_counts s b) < W64.
Hypothesis wr : can_write (d_mode d) = true.

Lemma remove_code_eq c : valid c -> @remove_code unit d c = fput (key c) None (Ret (Ok tt)).
Proof using ok wr. intros V. unfold remove_code. rewrite (handle_ok ok V). cbn [plift ch_key]. now rewrite wr. Qed.

Lemma trivial_conf value c : valid c -> fconf (key c) (trivial_visit d value 0 c tt).
Proof using ok wr.
  intros V. unfold trivial_visit, load_chunk, plain_calls. cbn [cc_key cc_exists cc_varlen cc_read cc_data]. rewrite (handle_ok ok V).
  cbn [bind ch_key plift]. apply fconf_read. intros f1. apply fconf_lift. intros ex _. destruct ex; cbn [negb]; [|constructor].
  apply fconf_read. intros f2. apply fconf_lift. intros vl _. destruct (prepare_read_buffer d vl) as [size data]. apply fconf_read. intros f3.
  apply fconf_lift. intros r _. destruct (trivial _ _ _); [|constructor]. rewrite remove_code_eq by assumption. apply fconf_put. constructor.
Qed.

Lemma trivial_run value st c r : valid c -> chunk_holds d st c r ->
  run (trivial_visit d value 0 c tt) (st, tt) =
  ((if trivial t value (stored_values r) then set_key st (key c) None else st, tt), Ok tt).
Proof using ok wr.
  intros V H. destruct (plain_readable ok V H) as (k & Ek & R). unfold trivial_visit, load_chunk. rewrite Ek. cbn [plift].
  assert (k = key c) as -> by (cbn [plain_calls cc_key] in Ek; rewrite (handle_ok ok V) in Ek; cbn in Ek; congruence).
  unfold fread. cbn [run fst snd]. destruct r as [[vl data]|]; cbn [option_map snd stored_values] in *.
  2:{ rewrite R. cbn [plift negb run]. destruct (trivial t value []) eqn:E; [discriminate|reflexivity]. }
  destruct R as (Ex & sz & Esz & Efst & bb & rest & Er). rewrite Ex. cbn [plift negb run fst snd]. rewrite Esz. cbn [plift].
  change (cc_data (plain_calls d)) with d in *.
  destruct (prepare_read_buffer d sz) as [size buf]. cbn [fst snd run] in *. rewrite Er. cbn [plift snd].
  subst size. unfold lenN. rewrite Nnat.Nat2N.id, firstn_app, firstn_all, Nat.sub_diag. cbn [firstn]. rewrite app_nil_r.
  rewrite remove_code_eq by assumption. now destruct (trivial t value data).
Qed.

Theorem trivial_general hw nThreads est value st st1 r res : (forall c, valid c -> chunk_holds d st c (res c)) ->
  remove_trivial d hw nThreads est value st st1 r ->
  r = Ok tt /\ (forall k, (forall c, valid c -> k <> key c) -> st1 k = st k) /\
  forall c, valid c -> st1 (key c) = if trivial t value (stored_values (res c)) then None else st (key c).
Proof using ok small wr.
  intros H R. destruct R as [R|r _ R]; [congruence|].
  destruct (@chunkwise d ok small (fun c => trivial_visit d value 0 c tt) st) with (1 := trivial_conf value)
    (threads := actual_threads hw nThreads) (est := est) (st1 := st1) (r := r) as (_ & F1 & F2 & F3 & F4).
  { intros c V. rewrite (trivial_run value V (H c V)). discriminate. }
  { exact R. }
  assert (A : forall c, valid c -> result (fun c => trivial_visit d value 0 c tt) st c = Ok tt).
  { intros c V. unfold result. now rewrite (trivial_run value V (H c V)). }
  specialize (F4 A). split; [exact F4|]. split; [exact F1|]. intros c V. destruct (F3 F4 c V) as [_ ->].
  unfold done. rewrite (trivial_run value V (H c V)). cbn [fst]. destruct (trivial _ _ _); [|reflexivity].
  unfold set_key. now rewrite String.eqb_refl.
Qed.

Theorem trivial_exists hw nThreads est value st res : (forall c, valid c -> chunk_holds d st c (res c)) ->
  exists st1 r, remove_trivial d hw nThreads est value st st1 r.
Proof using ok small wr.
  intros H. destruct (@chunkwise_exists d ok small (fun c => trivial_visit d value 0 c tt) st) with (1 := trivial_conf value)
    (threads := actual_threads hw nThreads) (est := est) as (st1 & r & R).
  { intros c V. rewrite (trivial_run value V (H c V)). discriminate. }
  exists st1, r. now apply trivial_done.
Qed.

(** The contents afterwards. *)
Lemma trivial_holds value st st1 res : (forall c, valid c -> chunk_holds d st c (res c)) ->
  (forall c, valid c -> st1 (key c) = if trivial t value (stored_values (res c)) then None else st (key c)) ->
  forall c, valid c -> chunk_holds d st1 c (if trivial t value (stored_values (res c)) then None else res c).
Proof using Type.
  intros H E c V. specialize (H c V). specialize (E c V). unfold chunk_holds in *. destruct (trivial t value (stored_values (res c))); [exact E|].
  now rewrite E.
Qed.

(** removeDataset *)
Lemma remove_conf c : valid c -> fconf (key c) (remove_visit d 0 c tt).
Proof using ok wr.
  intros V. unfold remove_visit. rewrite (handle_ok ok V). cbn [plift ch_key]. apply fconf_read. intros f. apply fconf_lift. intros ex _.
  destruct ex; cbn [negb]; [|constructor]. rewrite remove_code_eq by assumption. apply fconf_put. constructor.
Qed.
Lemma remove_run st c : valid c -> snd (run (remove_visit d 0 c tt) (st, tt)) = Ok tt.
Proof using ok wr.
  intros V. unfold remove_visit. rewrite (handle_ok ok V). cbn [plift ch_key]. unfold fread. cbn [run fst snd].
  unfold chunk_exists. rewrite (handle_ok ok V). cbn [bind plift ch_key]. destruct (only _ _); cbn [negb]; [|reflexivity].
  now rewrite remove_code_eq by assumption.
Qed.
Theorem removal_general hw nThreads est st st1 r : remove_dataset d hw nThreads est st st1 r ->
  r = Ok tt /\ forall k, st1 k = None.
Proof using ok small wr.
  intros [R|st1' r' _ N R|st1' _ R]; [congruence| |auto]. exfalso. apply N.
  destruct (@chunkwise d ok small (fun c => remove_visit d 0 c tt) st) with (1 := remove_conf)
    (threads := actual_threads hw nThreads) (est := est) (st1 := st1') (r := r') as (_ & _ & _ & _ & F4).
  { intros c V. rewrite (remove_run st V). discriminate. }
  { exact R. }
  apply F4. intros c V. exact (remove_run st V).
Qed.
Theorem removal_exists hw nThreads est st : exists st1, remove_dataset d hw nThreads est st st1 (Ok tt).
Proof using ok small wr.
  assert (S : forall c, valid c -> snd (run (remove_visit d 0 c tt) (st, tt)) <> UB) by (intros c V; rewrite (remove_run st V); discriminate).
  destruct (@chunkwise_exists d ok small (fun c => remove_visit d 0 c tt) st) with (1 := remove_conf) (2 := S)
    (threads := actual_threads hw nThreads) (est := est) as (st1 & r & R).
  destruct (@chunkwise d ok small (fun c => remove_visit d 0 c tt) st remove_conf S _ _ _ _ R) as (_ & _ & _ & _ & F4).
  rewrite F4 in R by (intros c V; exact (remove_run st V)). eexists. eapply removal_done; eassumption.
Qed.
End Trivial.

(** *** After a history *)
Theorem trivial_history d ops st0 st : dataset_ok d -> can_write (d_mode d) = true -> Forall (op_ok d) ops ->
  (forall c, valid_chunk (d_shape d) (d_chunks d) c -> st0 (chunk_key (d_key d) c) = None) ->
  run_ops d ops st0 = (st, Ok tt) -> prod (chunk_counts (d_shape d) (d_chunks d)) < W64 ->
  (forall c, valid_chunk (d_shape d) (d_chunks d) c -> comparable (d_type d) (stored_values (last_result d ops c None))) ->
  forall hw nThreads est value st1 r, remove_trivial d hw nThreads est value st st1 r ->
  r = Ok tt /\
  (forall k, (forall c, valid_chunk (d_shape d) (d_chunks d) c -> k <> chunk_key (d_key d) c) -> st1 k = st k) /\
  forall c, valid_chunk (d_shape d) (d_chunks d) c ->
    (single_value (d_type d) value (stored_values (last_result d ops c None)) ->
       st1 (chunk_key (d_key d) c) = None /\ chunk_exists d st1 c = Ok false) /\
    (~ single_value (d_type d) value (stored_values (last_result d ops c None)) ->
       st1 (chunk_key (d_key d) c) = st (chunk_key (d_key d) c)).
Proof.
  intros ok wr Ho He Hr Sm Cm hw nThreads est value st1 r R.
  destruct (@trivial_general d ok Sm wr hw nThreads est value st st1 r (fun c => last_result d ops c None) (history_holds ok wr Ho He Hr) R) as (E & F1 & F2). split; [exact E|]. split; [exact F1|].
  intros c V. specialize (F2 c V). pose proof (trivial_spec value (Cm c V)) as T. split.
  - intros S. apply T in S. rewrite S in F2. split; [exact F2|]. unfold chunk_exists. rewrite (handle_ok ok V). cbn [bind ch_key]. now rewrite F2.
  - intros S. destruct (trivial _ _ _); [|exact F2]. exfalso. apply S, T. reflexivity.
Qed.

(** The array afterwards. *)
Theorem trivial_array d ops st0 st : dataset_ok d -> can_write (d_mode d) = true -> Forall (array_op_ok d) ops ->
  (forall c, valid_chunk (d_shape d) (d_chunks d) c -> st0 (chunk_key (d_key d) c) = None) ->
  run_array_ops d ops st0 = (st, Ok tt) -> prod (chunk_counts (d_shape d) (d_chunks d)) < W64 ->
  (forall c out vl data, valid_chunk (d_shape d) (d_chunks d) c -> buffer_of (t_width (d_type d)) (prod (stored_shape d c)) out ->
     read_chunk d st c out = Ok (vl, data) -> comparable (d_type d) data) ->
  forall hw nThreads est v st1 r, elem_eq (d_type d) v (d_fill d) = true -> remove_trivial d hw nThreads est (Some v) st st1 r ->
  r = Ok tt /\
  forall ov off out, region_ok d off (v_shape ov) -> out_view_ok ov (lenN out) ->
    exists out', read_subarray d st1 ov off out = Ok out' /\
      forall i, in_shape (v_shape ov) i -> exists x,
        getN out' (v_off ov + lin (v_strides ov) i) = Ok x /\
        same_value d x (apply_ops d ops (fun _ => d_fill d) (vadd off i)).
Proof.
  intros ok wr Ho He Hr Sm Cm hw nThreads est v st1 r Hv R.
  destruct (run_array_ops_spec ok wr Ho (holds_empty He) (@represents_empty d)) as (st' & C & E & Hh & Hrep & _).
  rewrite Hr in E. injection E as <-.
  destruct (@trivial_general d ok Sm wr hw nThreads est (Some v) st st1 r (fun c => option_map (fun data => (false, data)) (C c)) Hh R) as (E & _ & F2). split; [exact E|]. intros ov off out Hreg Hov.
  pose proof (@trivial_holds d (Some v) st st1 (fun c => option_map (fun data => (false, data)) (C c)) Hh F2) as Hh1.
  set (C1 := fun c => if trivial (d_type d) (Some v) (stored_values (option_map (fun data => (false, data)) (C c))) then None else C c).
  assert (H1 : holds d st1 C1).
  { intros c V. specialize (Hh1 c V). cbn beta in Hh1. unfold C1. destruct (trivial _ _ _); exact Hh1. }
  destruct (read_subarray_spec ok Hreg H1 Hov) as (out' & E1 & _ & E2 & _). exists out'. split; [exact E1|].
  intros i Hi. eexists. split; [apply (E2 i Hi)|].
  assert (Hin : in_shape (d_shape d) (vadd off i)).
  { destruct Hreg as [Hreg _]. apply (region_in_shape Hreg). pose proof (in_shape_len Hi).
    assert (length off = length (v_shape ov)) by (unfold valid_region in Hreg; apply all3_length in Hreg; lia). now apply sub_in_box. }
  set (x := vadd off i) in *. eapply same_value_trans; [|apply (Hrep x Hin)].
  destruct (elem_chunk ok Hin) as (V & _). set (c := chunk_of (d_chunks d) x) in *.
  assert (Ev : val d C1 x = if trivial (d_type d) (Some v) (stored_values (option_map (fun data => (false, data)) (C c))) then d_fill d else val d C x).
  { unfold val, C1. fold c. destruct (trivial _ _ _); reflexivity. }
  rewrite Ev. destruct (trivial (d_type d) (Some v) _) eqn:T; [|apply same_value_refl]. apply same_fill. unfold val. fold c.
  destruct (C c) as [data|] eqn:Ec; [|discriminate]. cbn [option_map stored_values chunk_val] in *.
  specialize (Hh c V). rewrite Ec in Hh. cbn [option_map] in Hh. pose proof Hh as (bb & _ & _ & Hd & Hl & _). specialize (Hl eq_refl).
  destruct (read_holds ok V Hh) as (_ & _ & _ & RH). destruct (RH false data eq_refl (prod (stored_shape d c)) (repeat (zero_cell (t_width (d_type d))) (N.to_nat (prod (stored_shape d c)))) ) as (rest & Er & _).
  { apply zeros_buffer. } { lia. } { reflexivity. }
  assert (Cd : comparable (d_type d) data).
  { pose proof (Cm c _ _ _ V (zeros_buffer d _) Er) as Q. unfold comparable in *. now apply Forall_app in Q. }
  apply (trivial_spec (Some v) Cd) in T. destruct T as (_ & _ & T). eapply eq_trans; [|exact Hv]. apply T.
  pose proof (elem_stored ok Hin) as Hp. fold c in Hp. apply rowmajor_lt in Hp. apply nth_In. unfold lenN in Hl. lia.
Qed.

Theorem trivial_readonly d hw nThreads est value st st1 r : can_write (d_mode d) = false ->
  remove_trivial d hw nThreads est value st st1 r -> st1 = st /\ r = Throw EInvalidArgument.
Proof. intros H [_ ->|r' W _]; [auto|congruence]. Qed.
Theorem removal_readonly d hw nThreads est st st1 r : can_write (d_mode d) = false ->
  remove_dataset d hw nThreads est st st1 r -> st1 = st /\ r = Throw EInvalidArgument.
Proof. intros H [_|st' r' W _ _|st' W _]; [auto|congruence..]. Qed.
