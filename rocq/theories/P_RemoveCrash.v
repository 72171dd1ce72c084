(** The process dies during removeTrivialChunks or removeDataset. *)
From Coq Require Import String.
From Verif Require Import M_Base M_Text M_Key M_Blocking M_View M_Bytes M_N5Header M_Format M_Mode M_Shard
  M_Dataset M_Sharded M_Access M_Pool M_Parallel M_ForEach M_Functions M_Lock M_ShardRemove M_RemoveCrash
  S_Array S_Grid S_Bytes S_Crc S_Text S_Format S_Shard S_Dataset S_Access S_Sharded S_Functions S_ShardRemove
  P_Base P_Blocking P_Roi P_View P_Bytes P_Key P_Format P_Shard P_Dataset P_Access P_Read P_History P_Sharded P_ShardedApi
  P_Pool P_Foreach P_ForEach P_Collect P_Functions P_Functions2 P_LockedLoop P_ShardRemove.
Import List ListNotations.
Local Open Scope list_scope.
Local Open Scope N_scope.

(** ** Invariants of programs *)

(** [P] holds of the memory at all times and the memory changes according to [Q]. *)
Section Kept.
Context {M B : Type}.
Variables (P : M -> Prop) (Q : M -> M -> Prop).
Hypothesis Qrefl : forall m, Q m m.
Hypothesis Qtrans : forall a b c, Q a b -> Q b c -> Q a c.

Inductive kept : prog M B -> M -> Prop :=
| kept_ret o m : kept (Ret o) m
| kept_act f m : (forall m', Q m m' -> P m' -> P (fst (f m')) /\ Q m' (fst (f m')) /\ kept (snd (f m')) (fst (f m'))) ->
    kept (Act f) m.

Lemma kept_later p m m' : kept p m -> Q m m' -> kept p m'.
Proof. intros H HQ. inversion H; subst; constructor. eauto. Qed.

Lemma kept_bind p (k : B -> prog M B) m : kept p m -> (forall b m', kept (k b) m') -> kept (pbind p k) m.
Proof.
  intros H Hk. revert m H. induction p as [o|f IH] using prog_ind2; intros m H.
  - destruct o; cbn; [apply Hk|constructor..].
  - inversion H as [|f' m1 Hf]; subst. cbn. constructor. intros m' HQ HP. destruct (Hf m' HQ HP) as (A & C & D).
    destruct (f m') as [m2 p2] eqn:E. cbn [fst snd] in *. split; [exact A|]. split; [exact C|].
    specialize (IH m'). rewrite E in IH. now apply IH.
Qed.

Lemma kept_batch A (f : nat -> A -> B -> prog M B) tid items : Forall (fun i => forall b m, kept (f tid i b) m) items ->
  forall b m, kept (batch_prog f tid items b) m.
Proof. intros H. induction H as [|i r Hi _ IH]; intros b m; cbn; [constructor|]. apply kept_bind; auto. Qed.

Lemma kept_halted p m m' : halted p m m' -> P m -> kept p m -> P m'.
Proof.
  induction 1 as [p m|f m m' _ IH]; intros HP HK; [exact HP|]. inversion HK as [|f' m1 Hf]; subst.
  destruct (Hf m (Qrefl m) HP) as (A & _ & C). auto.
Qed.

Section Pool.
Variables (task : nat -> nat -> B -> prog M B) (junk : B -> Prop) (cnt : nat).
Hypothesis task_kept : forall k tid b m, kept (task k tid b) m.

Definition pool_kept (p : pool M B) : Prop :=
  P (p_mem p) /\ forall t k q, nth_error (p_workers p) t = Some (WRun k q) -> kept q (p_mem p).

Lemma set_worker_kept (p : pool M B) t w m : (forall t' k q, nth_error (p_workers p) t' = Some (WRun k q) -> kept q m) ->
  (forall k q, w = WRun k q -> kept q m) ->
  forall t' k q, nth_error (set_worker p t w) t' = Some (WRun k q) -> kept q m.
Proof.
  intros H Hw t' k q E. unfold set_worker in E. destruct (Nat.eq_dec t t') as [->|Ne].
  - assert (L : (t' < List.length (set_nth t' (p_workers p) w))%nat) by (apply nth_error_Some; congruence).
    rewrite set_nth_length in L. rewrite set_nth_same in E by exact L. injection E as ->. eauto.
  - rewrite set_nth_other in E by exact Ne. eauto.
Qed.

Lemma worker_kept p tid p' : pool_kept p -> worker_step task junk p tid p' -> pool_kept p'.
Proof.
  intros [HP HW] St. destruct St; split; cbn [p_mem p_workers] in *; auto.
  all: try (apply set_worker_kept; [exact HW|intros; congruence]).
  - apply set_worker_kept; [exact HW|]. intros k' q' [= <- <-]. apply task_kept.
  - pose proof (HW _ _ _ H) as K. inversion K as [|f' m1 Hf]; subst. apply (Hf _ (Qrefl _) HP).
  - pose proof (HW _ _ _ H) as K. inversion K as [|f' m1 Hf]; subst. destruct (Hf _ (Qrefl _) HP) as (A & C & D).
    apply set_worker_kept; [|intros k' q' [= <- <-]; exact D]. intros t' k' q' E. eapply kept_later; [|exact C]. eauto.
Qed.

Lemma wake_kept (p : pool M B) t b : pool_kept p -> pool_kept (wake p t b).
Proof. intros [HP HW]. split; [exact HP|]. cbn. apply set_worker_kept; [exact HW|congruence]. Qed.

Lemma caller_kept p c p' c' : pool_kept p -> caller_step cnt p c p' c' -> pool_kept p'.
Proof.
  intros [HP HW] St. destruct St; try (split; assumption).
  - unfold push in *. destruct (p_stop p); [discriminate|]. match goal with E : Some _ = Some _ |- _ => injection E as <- end. split; assumption.
  - match goal with N : notify_one _ _ |- _ => destruct N end; [apply wake_kept|]; split; assumption.
  - split; [exact HP|]. cbn. intros t k q E. rewrite nth_error_map in E. destruct (nth_error (p_workers p) t) as [w|] eqn:Ew; [|discriminate].
    cbn in E. destruct w; try discriminate. injection E as -> ->. eauto.
Qed.

Lemma pool_reach_kept m0 b0 n p c : P m0 -> reach (foreach_step task junk cnt) (pool_init m0 (repeat b0 n), CEnqueue 0) (p, c) ->
  P (p_mem p).
Proof.
  intros HP Hr. assert (G : forall s, reach (foreach_step task junk cnt) (pool_init m0 (repeat b0 n), CEnqueue 0) s -> pool_kept (fst s)).
  { induction 1 as [|s s' _ IH St].
    - split; [exact HP|]. cbn. intros t k q E. rewrite nth_error_map in E. destruct (nth_error (repeat b0 n) t); discriminate.
    - destruct St as [s s' St|p1 c1 t b E].
      + destruct St as [p1 c1 t p2 St|p1 c1 p2 c2 St]; cbn [fst] in *; eauto using worker_kept, caller_kept.
      + now apply wake_kept. }
  apply (G _ Hr).
Qed.
End Pool.

Lemma foreach_kept threads est cnt f junk b0 m0 m' : (forall tid i b m, (i < cnt)%nat -> kept (f tid i b) m) ->
  foreach_halted threads est cnt f junk b0 m0 m' -> P m0 -> P m'.
Proof.
  intros H R HP. destruct R as [m' _ R|p c _ R].
  - eapply kept_halted; [exact R|exact HP|]. unfold foreach_sequential. apply kept_batch. apply Forall_forall.
    intros i Hi. apply in_seq in Hi. intros b m. apply H. lia.
  - eapply pool_reach_kept; [|exact HP|exact R]. intros k tid b m. cbn beta. apply kept_batch. apply Forall_forall.
    intros i Hi b' m'. apply H. assert (Hs : In i (seq 0 cnt)); [|apply in_seq in Hs; lia].
    rewrite <- (@batches_concat _ cnt (chunked_work est) (seq 0 cnt)).
    + apply in_concat. eexists. split; [|exact Hi].
      destruct (Nat.lt_ge_cases k (List.length (batches cnt (chunked_work est) (seq 0 cnt)))) as [L|L]; [now apply nth_In|].
      rewrite nth_overflow in Hi by exact L. destruct Hi.
    + apply chunked_work_pos.
    + now rewrite seq_length.
Qed.
End Kept.

(** ** Datasets that are not sharded *)
Section Plain.
Variable d : dataset.
Hypothesis ok : dataset_ok d.
Notation valid := (valid_chunk (d_shape d) (d_chunks d)).
Notation key := (chunk_key (d_key d)).
Hypothesis small : prod (chunk_counts (d_shape d) (d_chunks d)) < W64.
Hypothesis wr : can_write (d_mode d) = true.
Variable st : store.
Variable pick : shape -> bool.

(** Files are as before, or they are files of picked chunks and gone. *)
Definition thinned (m : store * unit) : Prop := forall k,
  fst m k = st k \/ (fst m k = None /\ exists c, valid c /\ pick c = true /\ k = key c).
(** Files do not come back. *)
Definition fewer (m m' : store * unit) : Prop := forall k, fst m' k = fst m k \/ fst m' k = None.

Lemma fewer_refl m : fewer m m.
Proof using Type. intros k. now left. Qed.
Lemma fewer_trans a b c : fewer a b -> fewer b c -> fewer a c.
Proof using Type. intros H1 H2 k. destruct (H1 k) as [E1|E1], (H2 k) as [E2|E2]; rewrite ?E2, ?E1; auto. Qed.

Notation keeps := (kept thinned fewer).

Lemma put_kept c m : valid c -> pick c = true -> keeps (fput (key c) None (Ret (Ok tt))) m.
Proof using Type.
  intros V Hp. constructor. intros m' _ HP. cbn [fst snd]. split; [|split; [|constructor]].
  - intros k. cbn [fst]. unfold set_key. destruct (String.eqb_spec k (key c)) as [->|Ne]; [|apply HP]. right. split; [reflexivity|]. eauto.
  - intros k. cbn [fst]. unfold set_key. destruct (String.eqb_spec k (key c)) as [->|Ne]; auto.
Qed.

Lemma trivial_kept value res tid c m : valid c -> chunk_holds d st c res -> (trivial (d_type d) value (stored_values res) = true -> pick c = true) ->
  keeps (trivial_visit d value tid c tt) m.
Proof using ok wr.
  intros V Hh Hp. destruct (plain_readable ok V Hh) as (k & Ek & R). unfold trivial_visit, load_chunk. rewrite Ek. cbn [plift].
  assert (k = key c) as -> by (cbn [plain_calls cc_key] in Ek; rewrite (handle_ok ok V) in Ek; cbn in Ek; congruence).
  assert (Read : forall (g : option bytes -> fcode unit) m0, (forall m', fewer m0 m' -> thinned m' -> keeps (g (fst m' (key c))) m') ->
     keeps (fread (key c) g) m0).
  { intros g m0 H. constructor. intros m' HQ HP. cbn [fst snd]. split; [exact HP|]. split; [apply fewer_refl|auto]. }
  (* a file that is still there is the original *)
  assert (Orig : forall m', thinned m' -> fst m' (key c) <> None -> fst m' (key c) = st (key c)).
  { intros m' HP N. destruct (HP (key c)) as [E|[E _]]; [exact E|contradiction]. }
  assert (Gone : forall out, cc_read (plain_calls d) None c out = Throw ERuntime).
  { intros out. cbn [plain_calls cc_read]. unfold read_chunk. rewrite (handle_ok ok V). cbn [bind].
    rewrite (check_chunk_ok ok (c := c) _ V) by reflexivity. reflexivity. }
  apply Read. intros m1 _ P1. destruct (fst m1 (key c)) as [f1|] eqn:E1.
  2:{ cbn [plain_calls cc_exists]. unfold chunk_exists. rewrite (handle_ok ok V). cbn. constructor. }
  assert (S1 : st (key c) = Some f1). { rewrite <- (Orig m1 P1); congruence. }
  destruct res as [[vl data]|]; cbn [option_map snd stored_values] in *.
  2:{ rewrite S1 in R. rewrite R. cbn. constructor. }
  destruct R as (Ex & sz & Esz & Efst & bb & rest & Er). rewrite S1 in Ex, Esz, Er. rewrite Ex. cbn [plift negb].
  apply Read. intros m2 Q2 P2. destruct (fst m2 (key c)) as [f2|] eqn:E2.
  - assert (f2 = f1) as ->. { assert (st (key c) = Some f2) by (rewrite <- (Orig m2 P2); congruence). congruence. }
    rewrite Esz. cbn [plift]. change (cc_data (plain_calls d)) with d in *. destruct (prepare_read_buffer d sz) as [size buf] eqn:Ep. cbn [fst snd] in *.
    apply Read. intros m3 Q3 P3. destruct (fst m3 (key c)) as [f3|] eqn:E3.
    + assert (f3 = f1) as ->. { assert (st (key c) = Some f3) by (rewrite <- (Orig m3 P3); congruence). congruence. }
      rewrite Er. cbn [plift snd]. subst size. unfold lenN. rewrite Nat2N.id, firstn_app, Nat.sub_diag, firstn_all, firstn_O, app_nil_r.
      destruct (trivial (d_type d) value data) eqn:T; [|constructor]. rewrite (remove_code_eq ok wr V). apply put_kept; auto.
    + rewrite Gone. constructor.
  - destruct (cc_varlen (plain_calls d) None c) as [vl2| |]; cbn [plift]; [|constructor..].
    destruct (prepare_read_buffer _ vl2) as [size buf]. apply Read. intros m3 Q3 P3.
    assert (E3 : fst m3 (key c) = None). { destruct (Q3 (key c)) as [E|E]; congruence. }
    rewrite E3. rewrite Gone. constructor.
Qed.

Lemma remove_kept tid c m : valid c -> pick c = true -> keeps (remove_visit d tid c tt) m.
Proof using ok wr.
  intros V Hp. unfold remove_visit. rewrite (handle_ok ok V). cbn [plift ch_key]. constructor. intros m' _ HP. cbn [fst snd].
  split; [exact HP|]. split; [apply fewer_refl|]. destruct (chunk_exists d _ c) as [ex| |]; cbn [plift]; [|constructor..].
  destruct ex; cbn [negb]; [|constructor]. rewrite (remove_code_eq ok wr V). now apply put_kept.
Qed.

Lemma each_kept threads est visit st' : (forall tid c m, valid c -> keeps (visit tid c tt) m) ->
  each_chunk_halted (d_shape d) (d_chunks d) threads est (fun _ => True) tt (st, tt) visit (st', tt) -> thinned (st', tt).
Proof using ok small.
  intros H [bl Eb R]. destruct (chunks_by_id (do_dims ok) Eb small) as (l & Ll & Nd & Hi & Hc).
  refine (foreach_kept (P := thinned) (Q := fewer) _ _ _ R _); [exact fewer_refl|exact fewer_trans| |].
  - intros tid i [] m0 Li. cbn beta. rewrite <- Ll in Li. rewrite (Hc i Li). cbn [plift]. apply H. apply Hi, nth_In, Li.
  - intros k. now left.
Qed.

Lemma thinned_keys st' : thinned (st', tt) ->
  (forall k, (forall c, valid c -> k <> key c) -> st' k = st k) /\
  forall c, valid c -> st' (key c) = st (key c) \/ (pick c = true /\ st' (key c) = None).
Proof using ok.
  intros T. split.
  - intros k Hk. destruct (T k) as [E|(_ & c & V & _ & E)]; [exact E|]. destruct (Hk c V E).
  - intros c V. destruct (T (key c)) as [E|(E & c' & V' & Hp & Ek)]; [now left|]. right.
    assert (c' = c) as -> by (symmetry; eapply (key_inj ok); eauto). auto.
Qed.
End Plain.

Lemma trivial_halted_general d st res hw nThreads est value st' : dataset_ok d -> prod (chunk_counts (d_shape d) (d_chunks d)) < W64 ->
  (forall c, valid_chunk (d_shape d) (d_chunks d) c -> chunk_holds d st c (res c)) ->
  remove_trivial_halted d hw nThreads est value st st' ->
  (forall k, (forall c, valid_chunk (d_shape d) (d_chunks d) c -> k <> chunk_key (d_key d) c) -> st' k = st k) /\
  forall c, valid_chunk (d_shape d) (d_chunks d) c -> st' (chunk_key (d_key d) c) = st (chunk_key (d_key d) c) \/
    (trivial (d_type d) value (stored_values (res c)) = true /\ st' (chunk_key (d_key d) c) = None).
Proof.
  intros ok small Hh [_ ->|wr R]; [auto|].
  apply (@thinned_keys d ok st (fun c => trivial (d_type d) value (stored_values (res c)))).
  eapply (@each_kept d ok small st); [|exact R]. intros tid c m V. apply (@trivial_kept d ok wr st _ value (res c)); auto.
Qed.

Theorem trivial_halted_history d ops st0 st : dataset_ok d -> can_write (d_mode d) = true -> Forall (op_ok d) ops ->
  (forall c, valid_chunk (d_shape d) (d_chunks d) c -> st0 (chunk_key (d_key d) c) = None) ->
  run_ops d ops st0 = (st, Ok tt) -> prod (chunk_counts (d_shape d) (d_chunks d)) < W64 ->
  (forall c, valid_chunk (d_shape d) (d_chunks d) c -> comparable (d_type d) (stored_values (last_result d ops c None))) ->
  forall hw nThreads est value st', remove_trivial_halted d hw nThreads est value st st' ->
  (forall k, (forall c, valid_chunk (d_shape d) (d_chunks d) c -> k <> chunk_key (d_key d) c) -> st' k = st k) /\
  (forall c, valid_chunk (d_shape d) (d_chunks d) c -> st' (chunk_key (d_key d) c) = st (chunk_key (d_key d) c) \/
    (single_value (d_type d) value (stored_values (last_result d ops c None)) /\ st' (chunk_key (d_key d) c) = None)) /\
  forall hw' nThreads' est' st1 r, remove_trivial d hw' nThreads' est' value st' st1 r ->
    r = Ok tt /\ forall c, valid_chunk (d_shape d) (d_chunks d) c ->
      (single_value (d_type d) value (stored_values (last_result d ops c None)) -> st1 (chunk_key (d_key d) c) = None) /\
      (~ single_value (d_type d) value (stored_values (last_result d ops c None)) ->
         st1 (chunk_key (d_key d) c) = st (chunk_key (d_key d) c)).
Proof.
  intros ok wr Ho He Hr Sm Cm hw nThreads est value st' R. pose proof (history_holds ok wr Ho He Hr) as Hh.
  destruct (@trivial_halted_general d st (fun c => last_result d ops c None) hw nThreads est value st' ok Sm Hh R) as [F1 F2].
  split; [exact F1|]. split.
  - intros c V. destruct (F2 c V) as [E|[T E]]; [now left|]. right. split; [|exact E]. now apply (trivial_spec value (Cm c V)).
  - intros hw' nThreads' est' st1 r R'.
    set (res := fun c => match st' (chunk_key (d_key d) c) with None => None | Some _ => last_result d ops c None end).
    assert (Hh' : forall c, valid_chunk (d_shape d) (d_chunks d) c -> chunk_holds d st' c (res c)).
    { intros c V. specialize (Hh c V). unfold res. destruct (F2 c V) as [E|[_ E]].
      - unfold chunk_holds in *. rewrite E. destruct (st (chunk_key (d_key d) c)) eqn:Es; [exact Hh|reflexivity].
      - unfold chunk_holds. now rewrite E. }
    destruct (@trivial_general d ok Sm wr hw' nThreads' est' value st' st1 r res Hh' R') as (E & _ & F3). split; [exact E|].
    intros c V. specialize (F3 c V). pose proof (trivial_spec value (Cm c V)) as T. unfold res in F3. split.
    + intros S. apply T in S. destruct (st' (chunk_key (d_key d) c)) eqn:Es; [now rewrite S in F3|]. now destruct (trivial _ _ _).
    + intros S. assert (S' : trivial (d_type d) value (stored_values (last_result d ops c None)) = false).
      { clear - S T. destruct (trivial _ _ _); [|reflexivity]. destruct S. now apply T. }
      assert (E2 : st' (chunk_key (d_key d) c) = st (chunk_key (d_key d) c)).
      { destruct (F2 c V) as [E2|[Q _]]; [exact E2|congruence]. }
      rewrite <- E2. destruct (st' (chunk_key (d_key d) c)) eqn:Es; [now rewrite S' in F3|]. now destruct (trivial _ _ _).
Qed.

(** The array afterwards. *)
Theorem trivial_halted_array d ops st0 st : dataset_ok d -> can_write (d_mode d) = true -> Forall (array_op_ok d) ops ->
  (forall c, valid_chunk (d_shape d) (d_chunks d) c -> st0 (chunk_key (d_key d) c) = None) ->
  run_array_ops d ops st0 = (st, Ok tt) -> prod (chunk_counts (d_shape d) (d_chunks d)) < W64 ->
  (forall c out vl data, valid_chunk (d_shape d) (d_chunks d) c -> buffer_of (t_width (d_type d)) (prod (stored_shape d c)) out ->
     read_chunk d st c out = Ok (vl, data) -> comparable (d_type d) data) ->
  forall hw nThreads est v st', elem_eq (d_type d) v (d_fill d) = true -> remove_trivial_halted d hw nThreads est (Some v) st st' ->
  forall ov off out, region_ok d off (v_shape ov) -> out_view_ok ov (lenN out) ->
    exists out', read_subarray d st' ov off out = Ok out' /\
      forall i, in_shape (v_shape ov) i -> exists x,
        getN out' (v_off ov + lin (v_strides ov) i) = Ok x /\
        same_value d x (apply_ops d ops (fun _ => d_fill d) (vadd off i)).
Proof.
  intros ok wr Ho He Hr Sm Cm hw nThreads est v st' Hv R ov off out Hreg Hov.
  destruct (run_array_ops_spec ok wr Ho (holds_empty He) (@represents_empty d)) as (st1 & C & E & Hh & Hrep & _).
  rewrite Hr in E. injection E as <-.
  destruct (@trivial_halted_general d st (fun c => option_map (fun data => (false, data)) (C c)) hw nThreads est (Some v) st' ok Sm Hh R) as [_ F2].
  set (C1 := fun c => match st' (chunk_key (d_key d) c) with None => None | Some _ => C c end).
  assert (H1 : holds d st' C1).
  { intros c V. specialize (Hh c V). unfold C1. destruct (F2 c V) as [E|[_ E]].
    - unfold chunk_holds in *. rewrite E. destruct (st (chunk_key (d_key d) c)) eqn:Es; [exact Hh|reflexivity].
    - unfold chunk_holds. now rewrite E. }
  destruct (read_subarray_spec ok Hreg H1 Hov) as (out' & E1 & _ & E2 & _). exists out'. split; [exact E1|].
  intros i Hi. eexists. split; [apply (E2 i Hi)|].
  assert (Hin : in_shape (d_shape d) (vadd off i)).
  { destruct Hreg as [Hreg _]. apply (region_in_shape Hreg). pose proof (in_shape_len Hi).
    assert (List.length off = List.length (v_shape ov)) by (unfold valid_region in Hreg; apply all3_length in Hreg; lia). now apply sub_in_box. }
  set (x := vadd off i) in *. eapply same_value_trans; [|apply (Hrep x Hin)].
  destruct (elem_chunk ok Hin) as (V & _). set (c := chunk_of (d_chunks d) x) in *.
  destruct (C c) as [data|] eqn:Ec.
  2:{ assert (Ev : val d C1 x = val d C x).
      { unfold val, C1. fold c. rewrite Ec. now destruct (st' _). }
      rewrite Ev. apply same_value_refl. }
  destruct (F2 c V) as [Es|[T Es]].
  - assert (Ev : val d C1 x = val d C x).
    { unfold val, C1. fold c. rewrite Es, Ec. specialize (Hh c V). rewrite Ec in Hh. destruct Hh as (bb & Eb & _). now rewrite Eb. }
    rewrite Ev. apply same_value_refl.
  - assert (Ev : val d C1 x = d_fill d) by (unfold val, C1; fold c; now rewrite Es).
    rewrite Ev. apply same_fill. unfold val. fold c. rewrite Ec in *. cbn [option_map stored_values chunk_val] in *.
    specialize (Hh c V). rewrite Ec in Hh. cbn [option_map] in Hh. pose proof Hh as (bb & _ & _ & Hd & Hl & _). specialize (Hl Logic.eq_refl).
    destruct (read_holds ok V Hh) as (_ & _ & _ & RH). destruct (RH false data Logic.eq_refl (prod (stored_shape d c)) (repeat (zero_cell (t_width (d_type d))) (N.to_nat (prod (stored_shape d c)))) ) as (rest & Er & _).
    { apply zeros_buffer. } { lia. } { reflexivity. }
    assert (Cd : comparable (d_type d) data).
    { pose proof (Cm c _ _ _ V (zeros_buffer d _) Er) as Q. unfold comparable in *. now apply Forall_app in Q. }
    apply (trivial_spec (Some v) Cd) in T. destruct T as (_ & _ & T). eapply P_Functions.eq_trans; [|exact Hv]. apply T.
    pose proof (elem_stored ok Hin) as Hp. fold c in Hp. apply rowmajor_lt in Hp. apply nth_In. unfold lenN in Hl. lia.
Qed.

(** removeDataset *)
Theorem removal_halted_general d hw nThreads est st st' : dataset_ok d -> prod (chunk_counts (d_shape d) (d_chunks d)) < W64 ->
  remove_dataset_halted d hw nThreads est st st' ->
  (forall k, st' k = st k \/ st' k = None) /\
  ((forall k, (forall c, valid_chunk (d_shape d) (d_chunks d) c -> k <> chunk_key (d_key d) c) -> st' k = st k) \/
   (forall c, valid_chunk (d_shape d) (d_chunks d) c -> st' (chunk_key (d_key d) c) = None)).
Proof.
  intros ok small [_ ->|wr R|st1 wr R P]; [auto| |].
  - assert (T : thinned d st (fun _ => true) (st', tt)).
    { eapply (@each_kept d ok small st); [|exact R]. intros tid c m V. now apply (@remove_kept d ok wr st). }
    split; [intros k; destruct (T k) as [E|[E _]]; auto|]. left. apply (@thinned_keys d ok st _ st' T).
  - destruct (@chunkwise d ok small (fun c => remove_visit d 0 c tt) st) with (1 := @remove_conf d ok wr)
      (threads := actual_threads hw nThreads) (est := est) (st1 := st1) (r := @Ok unit tt) as (_ & F1 & F2 & F3 & _).
    { intros c V. rewrite (remove_run ok wr st V). discriminate. }
    { exact R. }
    assert (G : forall c, valid_chunk (d_shape d) (d_chunks d) c -> st1 (chunk_key (d_key d) c) = None).
    { intros c V. destruct (F3 Logic.eq_refl c V) as [_ E]. rewrite E. unfold done. unfold remove_visit. rewrite (handle_ok ok V). cbn [plift ch_key].
      unfold fread. cbn [run fst snd]. unfold chunk_exists. rewrite (handle_ok ok V). cbn [bind plift ch_key].
      destruct (only _ _) eqn:Eo; cbn [negb].
      - rewrite (remove_code_eq ok wr V). cbn. apply set_key_same.
      - cbn. unfold only in Eo. exact Eo. }
    split; [|right; intros c V; destruct (P (chunk_key (d_key d) c)) as [E|E]; rewrite E; auto].
    intros k. destruct (P k) as [E|E]; [|auto]. rewrite E.
    destruct (st1 k) as [f|] eqn:Ef; [|auto]. left. rewrite <- Ef. apply F1. intros c V ->. rewrite (G c V) in Ef. discriminate.
Qed.

(** ** Sharded datasets *)
Section Sharded.
Variable sd : sharded.
Hypothesis sok : sharded_ok sd.
Hypothesis small : prod (chunk_counts (d_shape (sd_base sd)) (d_chunks (sd_base sd))) < W64.
Variable m : N.
Hypothesis m_total : prod (sd_cps sd) * m < W64 - 1.
Hypothesis m_blob : forall data, buffer_of (t_width (d_type (sd_base sd))) (prod (d_chunks (sd_base sd))) data ->
      forall e, stored_as (d_codec (sd_base sd)) (concat data) e -> 0 < lenN e /\ lenN e <= m.
Notation d := (sd_base sd).
Notation valid := (valid_chunk (d_shape (sd_base sd)) (d_chunks (sd_base sd))).
Notation holds G st C := (holds_sh sd m (own_blob sd) own_shard G st C).
Variables (C : shape -> option (list cell)) (st : store).
Hypothesis start : holds (fun _ => True) st C.

(** The chunks [R] are gone, the shards [cut] may be damaged. *)
Definition thinned_shards (pick : shape -> bool) (R cut : list shape) (st' : store) : Prop :=
  (forall x, In x R -> valid x /\ pick x = true) /\
  (List.length cut <= 1)%nat /\
  (forall k, In k cut -> exists x, valid x /\ pick x = true /\ shard_of (sd_cps sd) x = k) /\
  holds (fun k => ~ In k cut) st' (minus C R) /\ framed sd st st'.

Lemma unharmed pick : thinned_shards pick [] [] st.
Proof using start.
  split; [intros x []|]. split; [cbn; auto|]. split; [intros k []|]. split; [|intros k _; reflexivity].
  intros c V _. exact (start V Logic.I).
Qed.

Lemma cut_thinned pick mem st' R : (forall x, In x R -> valid x /\ pick x = true) ->
  ((whole sd m C st R mem /\ forall k, st' k = mem k) \/
   exists x, valid x /\ pick x = true /\ (whole sd m C st R mem \/ torn sd m C st R x mem) /\
     forall k, k <> shard_key sd x -> st' k = mem k) ->
  exists cut, thinned_shards pick R cut st'.
Proof using sok.
  intros HR [[[W Fr] E]|(x & V & Hp & Hw & E)].
  - exists []. split; [exact HR|]. split; [cbn; auto|]. split; [intros k []|]. split.
    + intros c Vc _. refine (@holds_ext sd m (fun _ => True) mem st' _ _ _ _ W c Vc Logic.I); auto.
    + intros k Hk. rewrite E. now apply Fr.
  - exists [shard_of (sd_cps sd) x]. split; [exact HR|]. split; [cbn; auto|]. split; [intros k [<-|[]]; eauto|].
    assert (H : holds (fun k => k <> shard_of (sd_cps sd) x) mem (minus C R) /\ framed sd st mem).
    { destruct Hw as [[W Fr]|(_ & _ & W & Fr)]; [|auto]. split; [|exact Fr]. intros c Vc _. exact (W c Vc Logic.I). }
    destruct H as [H Fr]. split.
    + intros c Vc Hc.
      refine (@holds_ext sd m (fun k => k <> shard_of (sd_cps sd) x) mem st' _ _ _ _ H c Vc _); [|reflexivity|].
      * intros c' Vc' Hc'. apply E. unfold shard_key. intros Ek. apply Hc'. now apply (key_inj (so_base sok)).
      * intros Ek. apply Hc. left. now symmetry.
    + intros k Hk. rewrite E by (now apply Hk). now apply Fr.
Qed.

Lemma trivial_halted_sharded hw nThreads est value st' : sh_remove_trivial_halted sd hw nThreads est value st st' ->
  exists R cut, thinned_shards (picked (d_type d) value C) R cut st'.
Proof using sok small m_total m_blob start.
  intros [_ ->|y wr L Hc]; [exists [], []; apply unharmed|].
  destruct (@loop_setup sd sok m m_total m_blob C st (actual_threads hw nThreads <=? 1) (picked (d_type d) value C) start est small (sh_trivial_visit sd value)
    (fun c own k V K => @trivial_safe sd sok m m_total m_blob wr C st _ (picked (d_type d) value C) value c own k Logic.eq_refl V K) _ Logic.eq_refl y L) as (_ & _ & A).
  destruct (A st' Hc) as (R & HR & A'). exists R. eapply cut_thinned; eauto.
Qed.

Lemma exists_local st1 st2 c : valid c -> st1 (shard_key sd c) = st2 (shard_key sd c) -> sh_chunk_exists sd st1 c = sh_chunk_exists sd st2 c.
Proof using sok.
  intros V E. assert (Lc : List.length c = List.length (d_chunks d)) by (exact (valid_len V)).
  assert (Sid : shard_id c (sd_cps sd) = Ok (shard_of (sd_cps sd) c)) by (apply shard_id_spec; [exact (cps_pos sok)|rewrite (cps_len sok); exact Lc]).
  destruct (shard_handle_ok sok (shard_of_len sok Lc)) as (bs & Eh).
  unfold sh_chunk_exists, read_shard. rewrite Sid. cbn [bind]. rewrite Eh. cbn [bind ch_key]. unfold shard_key in E. unfold store_read. now rewrite E.
Qed.

Lemma drop_halted_sharded hw nThreads est st' : sh_remove_dataset_halted sd hw nThreads est st st' ->
  (exists R cut, thinned_shards (present C) R cut st') \/
  (forall c, valid c -> sh_chunk_exists sd st' c = Ok false) /\
  forall k, (forall c, valid c -> k <> shard_key sd c) -> st' k = st k \/ st' k = None.
Proof using sok small m_total m_blob start.
  intros [_ ->|y wr L Hc|y wr L F E P]; [left; exists [], []; apply unharmed| |].
  - left. destruct (@loop_setup sd sok m m_total m_blob C st (actual_threads hw nThreads <=? 1) (present C) start est small (sh_drop_visit sd)
      (fun c own k V K => @drop_safe sd sok m m_total m_blob wr C st _ (present C) c own k Logic.eq_refl V K) _ Logic.eq_refl y L) as (_ & _ & A).
    destruct (A st' Hc) as (R & HR & A'). exists R. eapply cut_thinned; eauto.
  - right. destruct (proj1 (@drop_loop sd sok wr small m m_total m_blob C st start _ _ y L) F) as (_ & R & W & HR & All). split.
    + intros c V. destruct (P (shard_key sd c)) as [Ek|Ek].
      * rewrite (exists_local V Ek). pose proof (@whole_shows sd sok m m_total m_blob C st R _ c W V) as Sc.
        destruct (in_dec _ c R) as [i|i]; [exact Sc|]. destruct (C c) as [data|] eqn:Ec; [|exact Sc].
        destruct i. apply All; auto. unfold present. now rewrite Ec.
      * rewrite (@exists_local st' (fun _ => None) c V Ek).
        pose proof (@holds_sh_empty sd sok m m_total m_blob (own_blob sd) (@own_blob_ok sd) own_shard (@own_shard_ok sd) (fun _ => True) (fun _ => None) (fun _ _ => Logic.eq_refl)) as He.
        exact (proj1 (@sh_chunk_view sd sok m m_total m_blob (fun _ => True) (fun _ => None) c (fun _ => None) V Logic.I He)).
    + destruct W as [_ Fr]. intros k Hk. destruct (P k) as [Ek|Ek]; [|auto]. left. rewrite Ek. now apply Fr.
Qed.

Lemma thinned_shows pick R cut st' c : thinned_shards pick R cut st' -> valid c -> ~ In (shard_of (sd_cps sd) c) cut ->
  shows sd st' c (option_map (fun data => (false, data)) (C c)) \/ pick c = true /\ shows sd st' c None.
Proof using sok m_total m_blob.
  intros (HR & _ & _ & H & _) V Nc.
  destruct (@sh_chunk_view sd sok m m_total m_blob (fun k => ~ In k cut) st' c (minus C R) V Nc H) as (E1 & E2 & _).
  unfold minus in E1, E2. destruct (in_dec _ c R) as [i|i]; [right; split; [apply HR, i|exact E1]|]. left.
  destruct (C c) as [data|]; cbn; [|exact E1]. split; [exact E1|]. now apply E2.
Qed.
End Sharded.

Theorem sharded_trivial_halted sd ops st : shard_history sd ops st ->
  (forall c, valid_chunk (d_shape (sd_base sd)) (d_chunks (sd_base sd)) c ->
     comparable (d_type (sd_base sd)) (stored_values (last_result (sd_base sd) ops c None))) ->
  forall hw nThreads est value st', sh_remove_trivial_halted sd hw nThreads est value st st' ->
  (forall k, (forall c, valid_chunk (d_shape (sd_base sd)) (d_chunks (sd_base sd)) c -> k <> shard_key sd c) -> st' k = st k) /\
  exists cut, (List.length cut <= 1)%nat /\
    (forall k, In k cut -> exists x, valid_chunk (d_shape (sd_base sd)) (d_chunks (sd_base sd)) x /\
       single_value (d_type (sd_base sd)) value (stored_values (last_result (sd_base sd) ops x None)) /\ shard_of (sd_cps sd) x = k) /\
    forall c, valid_chunk (d_shape (sd_base sd)) (d_chunks (sd_base sd)) c -> ~ In (shard_of (sd_cps sd) c) cut ->
      shows sd st' c (last_result (sd_base sd) ops c None) \/
      single_value (d_type (sd_base sd)) value (stored_values (last_result (sd_base sd) ops c None)) /\ shows sd st' c None.
Proof.
  intros Hh Cm hw nThreads est value st' H. destruct (history_start Hh) as (m & C & M1 & M2 & S & HC).
  pose proof (sh_ok Hh) as sok.
  destruct (@trivial_halted_sharded sd sok (sh_small Hh) m M1 M2 C st S hw nThreads est value st' H) as (R & cut & T).
  assert (Pk : forall c, valid_chunk (d_shape (sd_base sd)) (d_chunks (sd_base sd)) c -> picked (d_type (sd_base sd)) value C c = true ->
    single_value (d_type (sd_base sd)) value (stored_values (last_result (sd_base sd) ops c None))).
  { intros c V. specialize (Cm c V). unfold picked. rewrite (HC c V) in Cm |- *. destruct (C c) as [data|]; cbn [option_map stored_values] in *; [now apply trivial_spec|discriminate]. }
  pose proof T as (_ & T1 & T2 & _ & T3). split; [exact T3|]. exists cut. split; [exact T1|]. split.
  - intros k Hk. destruct (T2 k Hk) as (x & V & Hp & E). exists x. auto.
  - intros c V Nc. rewrite (HC c V). destruct (@thinned_shows sd sok m M1 M2 C st _ R cut st' c T V Nc) as [Sh|[Hp Sh]]; [now left|right].
    split; [|exact Sh]. rewrite <- (HC c V). now apply Pk.
Qed.

Theorem sharded_drop_halted sd ops st : shard_history sd ops st ->
  forall hw nThreads est st', sh_remove_dataset_halted sd hw nThreads est st st' ->
  ((forall k, (forall c, valid_chunk (d_shape (sd_base sd)) (d_chunks (sd_base sd)) c -> k <> shard_key sd c) -> st' k = st k) /\
   exists cut, (List.length cut <= 1)%nat /\
     forall c, valid_chunk (d_shape (sd_base sd)) (d_chunks (sd_base sd)) c -> ~ In (shard_of (sd_cps sd) c) cut ->
       shows sd st' c (last_result (sd_base sd) ops c None) \/ shows sd st' c None) \/
  ((forall c, valid_chunk (d_shape (sd_base sd)) (d_chunks (sd_base sd)) c -> shows sd st' c None) /\
   forall k, (forall c, valid_chunk (d_shape (sd_base sd)) (d_chunks (sd_base sd)) c -> k <> shard_key sd c) -> st' k = st k \/ st' k = None).
Proof.
  intros Hh hw nThreads est st' H. destruct (history_start Hh) as (m & C & M1 & M2 & S & HC).
  pose proof (sh_ok Hh) as sok.
  destruct (@drop_halted_sharded sd sok (sh_small Hh) m M1 M2 C st S hw nThreads est st' H) as [(R & cut & T)|T]; [left|right; exact T].
  pose proof T as (_ & T1 & T2 & _ & T3). split; [exact T3|]. exists cut. split; [exact T1|].
  intros c V Nc. rewrite (HC c V). destruct (@thinned_shows sd sok m M1 M2 C st _ R cut st' c T V Nc) as [Sh|[Hp Sh]]; auto.
Qed.

(** The array afterwards, if only chunks of the fill value are to be removed. *)
Theorem sharded_halted_array sd ops st0 st : sharded_ok sd -> can_write (d_mode (sd_base sd)) = true -> Forall (array_op_ok (sd_base sd)) ops ->
  (forall c, valid_chunk (d_shape (sd_base sd)) (d_chunks (sd_base sd)) c -> st0 (shard_key sd c) = None) ->
  run_sharded_ops sd ops st0 = (st, Ok tt) -> prod (chunk_counts (d_shape (sd_base sd)) (d_chunks (sd_base sd))) < W64 ->
  (forall c out data, valid_chunk (d_shape (sd_base sd)) (d_chunks (sd_base sd)) c ->
     buffer_of (t_width (d_type (sd_base sd))) (prod (d_chunks (sd_base sd))) out -> sh_chunk_exists sd st c = Ok true ->
     sh_read_chunk sd st c out = Ok (false, data) -> comparable (d_type (sd_base sd)) data) ->
  forall hw nThreads est v st', elem_eq (d_type (sd_base sd)) v (d_fill (sd_base sd)) = true ->
  sh_remove_trivial_halted sd hw nThreads est (Some v) st st' ->
  exists cut, (List.length cut <= 1)%nat /\
  forall ov off out, region_ok (sd_base sd) off (v_shape ov) -> out_view_ok ov (lenN out) ->
    (forall c, overlaps (d_shape (sd_base sd)) (d_chunks (sd_base sd)) off (v_shape ov) c -> ~ In (shard_of (sd_cps sd) c) cut) ->
    exists out', sh_read_subarray sd st' ov off out = Ok out' /\
      forall i, in_shape (v_shape ov) i -> exists x,
        getN out' (v_off ov + lin (v_strides ov) i) = Ok x /\
        same_value (sd_base sd) x (apply_ops (sd_base sd) ops (fun _ => d_fill (sd_base sd)) (vadd off i)).
Proof.
  intros sok wr Ho He Hr Sm Cm hw nThreads est v st' Hv H.
  pose proof (so_base sok) as ok. destruct (so_blob sok) as (m & M1 & M2).
  destruct (@run_sharded_ops_spec sd sok m M1 M2 (own_blob sd) (@own_blob_ok sd) own_shard (@own_shard_ok sd) (fun _ => True) ops (fun _ => Logic.I) wr Ho st0 _ _
    (@holds_sh_empty sd sok m M1 M2 (own_blob sd) (@own_blob_ok sd) own_shard (@own_shard_ok sd) (fun _ => True) st0 He) (@represents_empty (sd_base sd)))
    as (st1 & C & E & HC & HR & _).
  rewrite Hr in E. injection E as <-.
  destruct (@trivial_halted_sharded sd sok Sm m M1 M2 C st HC hw nThreads est (Some v) st' H) as (R & cut & Hp & T1 & _ & W & _).
  exists cut. split; [exact T1|]. intros ov off out Hreg Hov Hcut.
  destruct (@sh_read_subarray_spec sd sok m M1 M2 (own_blob sd) (@own_blob_ok sd) own_shard (@own_shard_ok sd) (fun k => ~ In k cut) ov off st' (minus C R) out Hreg Hcut W Hov) as (out' & E2 & _ & A & _).
  exists out'. split; [exact E2|]. intros i Hi. eexists. split; [apply (A i Hi)|].
  assert (Hin : in_shape (d_shape (sd_base sd)) (vadd off i)).
  { destruct Hreg as [Hr1 _]. apply (region_in_shape Hr1). pose proof (in_shape_len Hi).
    assert (List.length off = List.length (v_shape ov)) by (unfold valid_region in Hr1; apply all3_length in Hr1; lia). now apply sub_in_box. }
  set (x := vadd off i) in *. eapply same_value_trans; [|apply (HR x Hin)].
  destruct (elem_chunk ok Hin) as (V & _). unfold val. set (c := chunk_of (d_chunks (sd_base sd)) x) in *.
  unfold minus. destruct (in_dec _ c R) as [i0|_]; [|apply same_value_refl]. apply same_fill.
  destruct (Hp c i0) as [_ T]. unfold picked in T. destruct (C c) as [data|] eqn:Ec; [|discriminate]. cbn [chunk_val].
  destruct (@sh_chunk_view sd sok m M1 M2 (fun _ => True) st c C V Logic.I HC) as (V1 & V2 & _). rewrite Ec in V1.
  pose proof (@blob_length sd m (fun _ => True) st C c data V Logic.I HC Ec) as Hb.
  assert (Cd : comparable (d_type (sd_base sd)) data).
  { apply (Cm c (repeat (zero_cell (t_width (d_type (sd_base sd)))) (N.to_nat (prod (d_chunks (sd_base sd))))) data V); auto using zeros_buffer. }
  apply (trivial_spec (Some v) Cd) in T. destruct T as (_ & _ & T). eapply P_Functions.eq_trans; [|exact Hv]. apply T.
  pose proof (elem_stored ok Hin) as Hs. fold c in Hs. apply rowmajor_lt in Hs. apply nth_In.
  destruct Hb as [Lb _]. unfold stored_shape in *. rewrite (so_zarr sok) in *. unfold lenN in Lb. lia.
Qed.
