(** Lemmas about clients of a dataset in an object store. *)
From Coq Require Import String.
From Verif Require Import M_Base M_Text M_Key M_Blocking M_View M_Bytes M_N5Header M_Format
  M_Mode M_Shard M_Dataset M_Sharded M_Access M_Pool M_Parallel M_Lock M_Clients M_S3Clients M_RemoveCrash
  S_Array S_Grid S_Bytes S_Text S_Format S_Shard S_Dataset S_Sharded S_Access S_File S_Pool S_Parallel S_Lock S_Clients S_Readers
  S_S3Clients
  P_Base P_Blocking P_Roi P_View P_Bytes P_Key P_Format P_Shard P_Dataset P_Access P_Read P_History P_Sharded P_ShardedApi P_File P_Pool
  P_Foreach P_Parallel P_ParWrite P_ParSharded P_ParHistory P_Lock P_Clients P_Clients2 P_Readers P_Readers2 P_Readers3.
Import List ListNotations.
Local Open Scope list_scope.
Local Open Scope N_scope.
Local Notation length := List.length.

(** ** The same results as with files *)
(** If the first program succeeds, so does the second, with the same files. *)
Definition agree (p q : code) : Prop :=
  forall st st' o m1 x, (forall k, st k = st' k) -> run p (st, o) = (m1, Ok x) ->
    exists st2, run q (st', o) = ((st2, snd m1), Ok x) /\ forall k, fst m1 k = st2 k.

Lemma agree_ret o : agree (Ret o) (Ret o).
Proof. intros st st' out m1 x E H. cbn in *. injection H as <- ->. exists st'. auto. Qed.
Lemma agree_throw e q : agree (Ret (Throw e)) q.
Proof. intros st st' out m1 x E H. discriminate H. Qed.
Lemma agree_plet A (o : outcome A) k k' : (forall a, agree (k a) (k' a)) -> agree (plet o k) (plet o k').
Proof. destruct o; cbn; intros H; [apply H|apply agree_ret|apply agree_ret]. Qed.
Lemma agree_pread key k k' : (forall v, agree (k v) (k' v)) -> agree (pread key k) (pread key k').
Proof.
  intros H st st' o m1 x E R. cbn in R |- *. rewrite <- E. eapply H; eauto.
Qed.
Lemma agree_set key v p q : agree p q -> agree (pset key v p) (pset key v q).
Proof.
  intros H st st' o m1 x E R. cbn in R |- *. eapply H; [|exact R]. intros k. unfold set_key. destruct (String.eqb k key); auto.
Qed.
Lemma agree_write kc key v p q : agree p q -> agree (write_code kc key v p) (put_code key v q).
Proof.
  intros H. unfold write_code, put_code. destruct (_ && _); [apply agree_throw|].
  intros st st' o m1 x E R. cbn in R |- *. eapply H; [|exact R]. intros k. unfold set_key. destruct (String.eqb k key); auto.
Qed.
Lemma agree_bind p q k k' : agree p q -> (forall b, agree (k b) (k' b)) -> agree (pbind p k) (pbind q k').
Proof.
  intros H Hk st st' o m1 x E R. rewrite run_bind in R |- *.
  destruct (run p (st, o)) as [m2 [b|e|]] eqn:E2; try discriminate R.
  destruct (H _ _ _ _ _ E E2) as (st2 & -> & K). destruct m2 as [s2 o2]. cbn [fst snd] in *.
  eapply Hk; [exact K|exact R].
Qed.
Lemma agree_batch A (f g : A -> list cell -> code) us : (forall u b, agree (f u b) (g u b)) ->
  forall b, agree (batch_prog (fun _ => f) 0 us b) (batch_prog (fun _ => g) 0 us b).
Proof.
  intros H. induction us as [|u us IH]; intros b; cbn [batch_prog]; [apply agree_ret|]. apply agree_bind; auto.
Qed.

(** ** Code that changes one object at most, at one moment *)
Definition puts (key : string) (p : code) : Prop :=
  forall m m', halted p m m' ->
    (forall k, k <> key -> fst m' k = fst m k) /\
    (fst m' key = fst m key \/ fst m' key = fst (fst (run p m)) key).
Lemma puts_ret key o : puts key (Ret o).
Proof. intros m m' H. inversion H; subst. auto. Qed.
Lemma puts_plet A key (o : outcome A) k : (forall a, o = Ok a -> puts key (k a)) -> puts key (plet o k).
Proof. destruct o; cbn; intros H; [now apply H|apply puts_ret|apply puts_ret]. Qed.
Lemma puts_pread key k0 k : (forall v, puts key (k v)) -> puts key (pread k0 k).
Proof.
  intros H m m' Hm. inversion Hm as [|f m0 m1 H']; subst; [auto|]. cbn [fst snd] in H'.
  destruct (H _ _ _ H') as [F V]. split; [exact F|]. exact V.
Qed.
Lemma puts_set key v o : puts key (pset key v (Ret o)).
Proof.
  intros m m' Hm. inversion Hm as [|f m0 m1 H']; subst; [auto|]. cbn [fst snd] in H'. inversion H'; subst. cbn [fst run pset].
  split; [intros k Hk; now apply set_key_other|]. auto.
Qed.
Lemma puts_batch A (key : A -> string) (f : A -> list cell -> code) us :
  (forall u b, In u us -> puts (key u) (f u b)) -> NoDup (map key us) ->
  forall b m m', halted (batch_prog (fun _ => f) 0 us b) m m' -> forall k,
    (~ In k (map key us) -> fst m' k = fst m k) /\
    (fst m' k = fst m k \/ fst m' k = fst (fst (run (batch_prog (fun _ => f) 0 us b) m)) k).
Proof.
  induction us as [|u us IH]; intros Hu ND b m m' H k; cbn [batch_prog] in H.
  - inversion H; subst. auto.
  - cbn [map] in *. inversion ND as [|? ? N1 N2]; subst.
    assert (T := Hu u b (or_introl eq_refl)).
    assert (IH' := IH (fun u' b' Hi => Hu u' b' (or_intror Hi)) N2). clear IH.
    cbn [batch_prog]. rewrite run_bind. destruct (halted_bind H) as [H1|(m1 & b1 & E & H1)].
    + destruct (T _ _ H1) as [F V]. split.
      { intros Hn. apply F. intros ->. apply Hn. now left. }
      destruct (string_dec k (key u)) as [->|Hk]; [|left; now apply F].
      destruct V as [V|V]; [now left|right].
      rewrite V. destruct (run (f u b) m) as [m1 [b1|e|]] eqn:E; cbn [fst]; [|reflexivity|reflexivity].
      destruct (IH' b1 m1 _ (halted_end _ m1) (key u)) as [F2 _]. symmetry. now apply F2.
    + rewrite E. destruct (T _ _ (halted_end _ m)) as [F V]. rewrite E in F, V. cbn [fst] in F, V.
      destruct (IH' b1 m1 m' H1 k) as [F2 V2]. split.
      { intros Hn. rewrite F2 by (intros Hi; apply Hn; now right). apply F. intros ->. apply Hn. now left. }
      destruct (string_dec k (key u)) as [->|Hk].
      * right. rewrite (F2 N1). destruct (IH' b1 m1 _ (halted_end _ m1) (key u)) as [F3 _]. symmetry. now apply F3.
      * rewrite <- (F k Hk). exact V2.
Qed.

Lemma call_agrees C C' (b1 : C -> call_body) (b2 : C' -> call_body) c c' st st' st1 :
  (forall k, st k = st' k) -> agree (cb_code (b1 c)) (cb_code (b2 c')) ->
  cb_size (b1 c) = 0 -> cb_size (b2 c') = 0 -> cb_out (b1 c) = cb_out (b2 c') ->
  call_alone b1 c st = (st1, Ok []) ->
  exists st2, call_alone b2 c' st' = (st2, Ok []) /\ forall k, st1 k = st2 k.
Proof.
  intros E A S1 S2 EO H. unfold call_alone in *. rewrite S1 in H. rewrite S2. rewrite EO in H.
  destruct (run (cb_code (b1 c)) (st, cb_out (b2 c'))) as [m1 [x|e|]] eqn:R; try discriminate H.
  destruct (A _ _ _ _ _ E R) as (st2 & -> & K). cbn [fst snd answer] in *. injection H as <-. exists st2. auto.
Qed.

Section Plain.
Variable d : dataset.
Hypothesis ok : dataset_ok d.
Hypothesis Hw : can_write (d_mode d) = true.
Notation w := (t_width (d_type d)).
Notation s := (d_shape d).
Notation b := (d_chunks d).
Notation valid := (valid_chunk (d_shape d) (d_chunks d)).
Notation key := (chunk_key (d_key d)).

Lemma agree_chunk c data o : agree (write_chunk_code d c data (Ret o)) (s3_write_chunk_code d c data (Ret o)).
Proof using.
  unfold write_chunk_code, s3_write_chunk_code. destruct (negb _); [apply agree_ret|].
  apply agree_plet. intros h. apply agree_plet. intros _. apply agree_plet. intros [v|].
  - apply agree_write, agree_ret.
  - apply agree_set, agree_ret.
Qed.
Lemma agree_op o : agree (cb_code (plain_body d (KOp o))) (cb_code (s3_body d (KOp o))).
Proof using.
  destruct o as [off n src|c data|c]; cbn [plain_body s3_body].
  - cbn [write_call s3_write_call no_output cb_code]. apply agree_plet. intros l. unfold foreach_sequential.
    apply agree_batch. intros c bf. unfold write_unit_code, s3_write_unit_code. apply agree_plet. intros h.
    apply agree_pread. intros f1. apply agree_pread. intros f2. apply agree_plet. intros bf'. apply agree_chunk.
  - apply agree_chunk.
  - cbn [remove_chunk_call s3_remove_chunk_call no_output cb_code]. apply agree_plet. intros h. destruct (negb _); [apply agree_ret|].
    apply agree_set, agree_ret.
Qed.
Lemma s3_op o st st' C a : array_op_ok d o -> (forall k, st k = st' k) -> holds d st C -> represents d C a ->
  exists st1 st2 C', call_alone (s3_body d) (KOp o) st = (st1, Ok []) /\ run_array_op d o st' = (st2, Ok tt) /\
    (forall k, st1 k = st2 k) /\ holds d st1 C' /\ represents d C' (apply_op d o a).
Proof using ok Hw.
  intros Ho E HC HR. destruct (@plain_op d ok Hw o st st' C a Ho E HC HR) as (st1 & st2 & C' & E1 & E2 & K & HC' & HR').
  destruct (@call_agrees _ _ (plain_body d) (s3_body d) (KOp o) (KOp o) st st st1 (fun _ => Logic.eq_refl) (@agree_op o)) as (st3 & E3 & K3).
  - destruct o; reflexivity.
  - destruct o; reflexivity.
  - destruct o; reflexivity.
  - exact E1.
  - exists st3, st2, C'. split; [exact E3|]. split; [exact E2|]. split; [intros k; now rewrite <- K3|].
    split; [|exact HR']. eapply holds_ext; [|exact HC']. intros k. now rewrite K3.
Qed.
Lemma s3_read ov off out st C : region_ok d off (v_shape ov) -> out_view_ok ov (lenN out) -> holds d st C ->
  exists out', call_alone (s3_body d) (KRead ov off out) st = (st, Ok out') /\ read_subarray d st ov off out = Ok out' /\
    lenN out' = lenN out /\
    (forall i, in_shape (v_shape ov) i -> getN out' (out_addr ov i) = Ok (val d C (vadd off i))) /\
    (forall a, (forall i, in_shape (v_shape ov) i -> a <> out_addr ov i) -> getN out' a = getN out a).
Proof using ok. exact (@plain_read d ok ov off out st C). Qed.

Lemma puts_chunk c data o : valid c -> puts (key c) (s3_write_chunk_code d c data (Ret o)).
Proof using ok.
  intros Hc. unfold s3_write_chunk_code. destruct (negb _); [apply puts_ret|]. rewrite (handle_ok ok Hc). cbn [plet ch_key].
  apply puts_plet. intros _ _. apply puts_plet. intros [v|] _; [apply puts_set|apply puts_set].
Qed.
Lemma puts_unit src off n c bf : valid c -> puts (key c) (s3_write_unit_code d src off n c bf).
Proof using ok.
  intros Hc. unfold s3_write_unit_code. rewrite (handle_ok ok Hc). cbn [plet ch_key]. apply puts_pread. intros f1. apply puts_pread. intros f2.
  apply puts_plet. intros bf' _. now apply puts_chunk.
Qed.

(** Objects while a call is under way. *)
Lemma s3_call_files c m0 m' : client_call_ok d c -> halted (cb_code (s3_body d c)) m0 m' -> forall k,
  (~ In k (pw d c) -> fst m' k = fst m0 k) /\
  (fst m' k = fst m0 k \/ fst m' k = fst (fst (run (cb_code (s3_body d c)) m0)) k).
Proof using ok Hw.
  intros Hc H k.
  assert (ONE : forall key0 p, puts key0 p -> In key0 (pw d c) -> cb_code (s3_body d c) = p ->
    (~ In k (pw d c) -> fst m' k = fst m0 k) /\
    (fst m' k = fst m0 k \/ fst m' k = fst (fst (run (cb_code (s3_body d c)) m0)) k)).
  { intros key0 p T Hi E. rewrite E in *. destruct (T _ _ H) as [F V]. split.
    - intros Hn. apply F. intros ->. contradiction.
    - destruct (string_dec k key0) as [->|Hk]; [exact V|left; now apply F]. }
  destruct c as [ov off out|[off n src|c data|c]]; cbn [client_call_ok array_op_ok s3_body] in *.
  - destruct Hc as [Hreg _]. rewrite (harmless_files H (looks_harmless (@looks_call d ok ov off out Hreg))). auto.
  - destruct Hc as [Hreg Hsrc]. cbn [pw op_keys]. unfold reqs_of. destruct (begin_request_ok ok Hreg) as (l & E & ND & _ & HI).
    cbn [s3_write_call no_output cb_code] in *. rewrite E in *. cbn [plet] in *.
    apply (@puts_batch _ key (fun u bf => s3_write_unit_code d src off n u bf) l).
    + intros u bf Hu. apply puts_unit. eapply overlaps_valid, HI, Hu.
    + apply FinFun.Injective_map_NoDup; [intros x y Ek; now apply (key_inj ok)|exact ND].
    + exact H.
  - destruct Hc as [Hv Hd]. apply (ONE (key c) _ (@puts_chunk c data (Ok []) Hv)); [now left|reflexivity].
  - apply (ONE (key c) (pset (key c) None (Ret (Ok [])))); [apply puts_set|now left|].
    cbn [s3_remove_chunk_call remove_chunk_call no_output cb_code]. rewrite (handle_ok ok Hc), Hw. reflexivity.
Qed.

(** A chunk without an object has the fill value everywhere. *)
Lemma missing_fill st C a c : valid c -> holds d st C -> represents d C a -> st (key c) = None -> only_fill d a c.
Proof using ok.
  intros Hc HC HR E x Hx Ec. specialize (HR x Hx). unfold val in HR. rewrite Ec in HR.
  specialize (HC c Hc). destruct (C c) as [data|] eqn:EC; [|exact HR].
  cbn [option_map chunk_holds] in HC. destruct HC as (bb & Hb & _). congruence.
Qed.

(** What a read finds. *)
Theorem s3_mixed pre st00 st0 calls wr cs y1 y2 t ov off out rest r : Forall (array_op_ok d) pre ->
  (forall c, valid c -> st00 (key c) = None) -> run_array_ops d pre st00 = (st0, Ok tt) ->
  Forall (Forall (client_call_ok d)) calls -> nth_error calls wr = Some cs ->
  (forall t' cs', t' <> wr -> nth_error calls t' = Some cs' -> Forall read_only cs') ->
  reach (clients_step (s3_body d)) (clients_init st0 calls) y1 -> t <> wr ->
  nth_error (k_clients y1) t = Some (KIdle, KRead ov off out :: rest) ->
  reach (clients_step (s3_body d)) y1 y2 ->
  nth_error (answers_to t (k_log y2)) (length (answers_to t (k_log y1))) = Some r ->
  let a0 := apply_ops d pre (fun _ => d_fill d) in
  let lo := length (calls_by wr (k_log y1)) in
  let hi := length (calls_by wr (k_log y2)) in
  region_ok d off (v_shape ov) /\ out_view_ok ov (lenN out) /\
  exists r0 o mu moment C, r = answer (lenN out) o r0 /\
    run (cb_code (read_call d ov off out)) (mu, array_of out) = ((mu, o), r0) /\
    (forall c, (lo <= moment c <= S hi)%nat) /\
    represents d C (chunk_patchwork d cs a0 moment) /\ cells d (chunk_patchwork d cs a0 moment) /\
    (forall x, in_shape s x -> lenN (val d C x) = w /\ Forall is_byte (val d C x)) /\
    (forall c, valid c -> (mu (key c) = Some [] /\ cleared d cs a0 lo hi c) \/
       exists st C', holds d st C' /\ mu (key c) = st (key c) /\ C' c = C c).
Proof using ok Hw.
  intros Hpre He Er HG Hcs Hro R1 Ht E1 R2 Ha a0 lo hi.
  destruct (run_array_ops_spec ok Hw Hpre (holds_empty He) (@represents_empty d)) as (st1 & C1 & EE & HC & HR & _).
  rewrite Er in EE. injection EE as <-. fold a0 in HR.
  assert (HC0 : cells d a0) by exact (@apply_ops_cells d ok pre Hpre _ (fun _ _ => do_fill ok)).
  assert (Gcs : Forall (client_call_ok d) cs).
  { rewrite Forall_forall in HG. apply HG. now apply nth_error_In in Hcs. }
  set (good := fun c => client_call_ok d c /\ read_only c).
  assert (OTH : forall t' cs', t' <> wr -> nth_error calls t' = Some cs' -> Forall good cs').
  { intros t' cs' Hn E. pose proof (Hro t' cs' Hn E) as F. rewrite Forall_forall in HG, F |- *.
    intros c Hc. split; [|now apply F]. apply nth_error_In in E. specialize (HG _ E). rewrite Forall_forall in HG. now apply HG. }
  assert (GRO : forall c, good c -> harmless (cb_code (s3_body d c))).
  { intros [ov' off' out'|o] [G1 G2]; [|destruct G2]. eapply looks_harmless. apply (@looks_call d ok). apply G1. }
  assert (RSTEP : forall f m, harmless (Act f) -> fst (fst (f m)) = fst m /\ harmless (snd (f m))).
  { intros f m H. inversion H; subst. auto. }
  destruct (@reader_sees _ (s3_body d) st0 calls wr cs good harmless Hcs OTH RSTEP GRO y1 y2 t (KRead ov off out) rest r R1 Ht E1 R2 Ha)
    as ([[Hreg Hov] _] & r0 & o & -> & SEEN).
  split; [exact Hreg|]. split; [exact Hov|].
  set (base := base (s3_body d) st0 cs) in *.
  unfold count in SEEN. fold lo hi in SEEN.
  assert (Hlh : (lo <= hi)%nat).
  { unfold lo, hi. clear - R2. induction R2 as [|y y' _ IH H]; [lia|]. pose proof (count_step wr H). unfold count in *. lia. }
  assert (PRE : forall j, Forall (client_call_ok d) (firstn j cs)).
  { intros j. rewrite Forall_forall in Gcs |- *. intros c Hc. apply Gcs. rewrite <- (firstn_skipn j cs). apply in_or_app. now left. }
  pose proof (fun j => @alone_spec d ok (s3_body d) (run_array_op d) (read_subarray d) (holds d) (@val_cell d ok)
    s3_op s3_read (firstn j cs) (PRE j) st0 C1 a0 HC HR HC0) as AL.
  destruct (@choose_all (fun j C => holds d (base j) C /\ represents d C (apply_ops d (ops_of (firstn j cs)) a0)) (S hi)) as [F HF].
  { intros j. destruct (AL j) as (_ & C & X1 & X2 & _). exists C. split; [exact X1|exact X2]. }
  assert (CELLS : forall j, cells d (apply_ops d (ops_of (firstn j cs)) a0)).
  { intros j. destruct (AL j) as (_ & C & _ & _ & X). exact X. }
  assert (GN : NoDup (map key (reqs_of d off (v_shape ov)))).
  { unfold reqs_of. destruct (begin_request_ok ok Hreg) as (l & -> & ND & _).
    apply FinFun.Injective_map_NoDup; [intros x y Ek; now apply (key_inj ok)|exact ND]. }
  cbn [s3_body] in SEEN.
  destruct (seen_looks (@looks_call d ok ov off out Hreg) GN SEEN (base lo)) as (mu & M1 & _ & RUN).
  set (touched := fun k => exists j c, (lo <= j <= hi)%nat /\ nth_error cs j = Some c /\ In k (pw d c)).
  assert (GC : forall j c, nth_error cs j = Some c -> client_call_ok d c).
  { intros j c Nc. rewrite Forall_forall in Gcs. apply Gcs. now apply nth_error_In in Nc. }
  assert (WIN : forall k st, window (s3_body d) st0 cs lo hi st -> exists j, (lo <= j <= S hi)%nat /\ st k = base j k).
  { intros k st (j & Hj & P). destruct P as [->|(c & m' & Nc & Hh & ->)]; [exists j; split; [lia|reflexivity]|].
    destruct (@s3_call_files c _ _ (GC j c Nc) Hh k) as [NT [V|V]]; cbn [fst] in *.
    - exists j. split; [lia|exact V].
    - exists (S j). split; [lia|]. rewrite V. unfold base. now rewrite (base_S _ _ Nc). }
  assert (BASE : forall k, touched k \/ forall j, (lo <= j <= S hi)%nat -> base j k = base lo k).
  { intros k.
    assert (DEC : touched k \/ forall j c, (lo <= j <= hi)%nat -> nth_error cs j = Some c -> ~ In k (pw d c)).
    { clear - Hlh. unfold touched. assert (G : forall n, (exists j c, (lo <= j < n)%nat /\ nth_error cs j = Some c /\ In k (pw d c)) \/
        forall j c, (lo <= j < n)%nat -> nth_error cs j = Some c -> ~ In k (pw d c)).
      { induction n as [|n [(j & c & H1 & H2)|IH]]; [right; intros; lia|left; exists j, c; split; [lia|exact H2]|].
        destruct (nth_error cs n) as [c|] eqn:En.
        - destruct (in_dec string_dec k (pw d c)) as [Hi|Hi].
          + destruct (Nat.le_gt_cases lo n); [left; exists n, c; split; [lia|auto]|right; intros; lia].
          + right. intros j c' Hj E. destruct (Nat.eq_dec j n) as [->|]; [congruence|]. apply (IH j c'); [lia|exact E].
        - right. intros j c' Hj E. destruct (Nat.eq_dec j n) as [->|]; [congruence|]. apply (IH j c'); [lia|exact E]. }
      destruct (G (S hi)) as [(j & c & H1 & H2)|H]; [left; exists j, c; split; [lia|exact H2]|].
      right. intros j c Hj. apply H. lia. }
    destruct DEC as [T|NT]; [now left|right].
    intros j Hj. replace j with (lo + (j - lo))%nat in * by lia. generalize dependent (j - lo)%nat. clear j.
    intros i. induction i as [|i IH]; intros Hi; [now rewrite Nat.add_0_r|]. rewrite <- IH by lia.
    rewrite Nat.add_succ_r. destruct (nth_error cs (lo + i)) as [c|] eqn:En.
    - unfold base. rewrite (base_S _ _ En).
      destruct (@s3_call_files c _ _ (GC _ c En) (halted_end _ (base (lo + i)%nat, cb_out (s3_body d c))) k) as [X _].
      unfold base in X. rewrite X by (apply (NT (lo + i)%nat c); [lia|exact En]). reflexivity.
    - unfold base, P_Readers.base. apply nth_error_None in En. now rewrite !firstn_all2 by lia. }
  assert (KEYS : forall k, (exists j, (lo <= j <= S hi)%nat /\ mu k = base j k) \/
    (mu k = Some [] /\ touched k /\ exists j, (lo <= j <= S hi)%nat /\ base j k = None)).
  { intros k. destruct (M1 k) as [E|[(st & W & E)|(E & st & st' & W & W' & N0 & N1)]].
    - left. exists lo. split; [lia|exact E].
    - left. rewrite E. now apply WIN.
    - right. split; [exact E|]. destruct (WIN k st W) as (j & Hj & Ej). destruct (WIN k st' W') as (j' & Hj' & Ej').
      split; [|exists j'; split; [exact Hj'|congruence]].
      destruct (BASE k) as [T|S]; [exact T|]. exfalso. apply N0. rewrite Ej, (S j Hj), <- (S j' Hj'), <- Ej'. exact N1. }
  set (moment := chunk_moment d base lo (S hi) mu).
  assert (RANGE : forall c, (lo <= moment c <= S hi)%nat) by (intros c; apply chunk_moment_range; lia).
  exists r0, o, mu, moment, (fun c => F (moment c) c).
  split; [reflexivity|]. split; [exact RUN|]. split; [exact RANGE|]. split; [|split; [|split]].
  - intros x Hx. unfold chunk_patchwork. destruct (HF (moment (chunk_of b x)) ltac:(apply RANGE)) as [_ HRj]. exact (HRj x Hx).
  - intros x Hx. unfold chunk_patchwork. now apply CELLS.
  - intros x Hx. destruct (HF (moment (chunk_of b x)) ltac:(apply RANGE)) as [HCj _]. exact (@val_cell d ok _ _ x HCj Hx).
  - intros c Hc. destruct (KEYS (key c)) as [I|(E & (j & call & Hj & Nc & Hi) & j' & Hj' & En)].
    + right. exists (base (moment c)), (F (moment c)). destruct (HF (moment c) ltac:(apply RANGE)) as [HCj _].
      split; [exact HCj|]. split; [exact (chunk_moment_same I)|reflexivity].
    + left. split; [exact E|]. destruct (@pw_ok d ok call _ (GC j call Nc) Hi) as (x & Hx & Ek). apply (key_inj ok) in Ek. subst x.
      split; [exists j, call; auto|]. exists j'. split; [exact Hj'|].
      destruct (HF j' ltac:(lia)) as [HCj HRj]. exact (missing_fill Hc HCj HRj En).
Qed.

Theorem s3_reader pre st00 st0 calls wr cs y1 y2 t ov off out rest r : Forall (array_op_ok d) pre ->
  (forall c, valid c -> st00 (key c) = None) -> run_array_ops d pre st00 = (st0, Ok tt) ->
  Forall (Forall (client_call_ok d)) calls -> nth_error calls wr = Some cs ->
  (forall t' cs', t' <> wr -> nth_error calls t' = Some cs' -> Forall read_only cs') ->
  reach (clients_step (s3_body d)) (clients_init st0 calls) y1 -> t <> wr ->
  nth_error (k_clients y1) t = Some (KIdle, KRead ov off out :: rest) ->
  reach (clients_step (s3_body d)) y1 y2 ->
  nth_error (answers_to t (k_log y2)) (length (answers_to t (k_log y1))) = Some r ->
  let a0 := apply_ops d pre (fun _ => d_fill d) in
  let lo := length (calls_by wr (k_log y1)) in
  let hi := length (calls_by wr (k_log y2)) in
  (exists moment out', r = Ok out' /\ (forall c, (lo <= moment c <= S hi)%nat) /\
     shows_region d (chunk_patchwork d cs a0 moment) ov off out out') \/
  ((exists c, overlaps s b off (v_shape ov) c /\ cleared d cs a0 lo hi c) /\
   (empty_rejected d -> r = Throw ERuntime) /\
   (plain_bytes d -> exists moment out', r = Ok out' /\ (forall c, (lo <= moment c <= S hi)%nat) /\
     shows_except d (cleared d cs a0 lo hi) (chunk_patchwork d cs a0 moment) ov off out out')).
Proof using ok Hw.
  intros Hpre He Er HG Hcs Hro R1 Ht E1 R2 Ha a0 lo hi.
  destruct (@s3_mixed pre st00 st0 calls wr cs y1 y2 t ov off out rest r Hpre He Er HG Hcs Hro R1 Ht E1 R2 Ha)
    as (Hreg & Hov & r0 & o & mu & moment & C & -> & RUN & RANGE & HR & HC & HV & HM). fold lo hi a0 in RANGE, HR, HC, HM.
  destruct (begin_request_ok ok Hreg) as (l & El & ND & _ & HI).
  assert (ALL : (forall c, In c l -> exists st C', holds d st C' /\ mu (key c) = st (key c) /\ C' c = C c) \/
    exists c, In c l /\ mu (key c) = Some [] /\ cleared d cs a0 lo hi c).
  { assert (HL : forall c, In c l -> valid c) by (intros c Hc; eapply overlaps_valid, HI, Hc). clear - HL HM.
    induction l as [|c l IH]; [left; intros c []|].
    destruct IH as [IH|(c' & Hc' & X)]; [intros; apply HL; now right| |right; exists c'; split; [now right|exact X]].
    destruct (HM c (HL c (or_introl eq_refl))) as [X|X]; [right; exists c; split; [now left|exact X]|].
    left. intros c' [<- |Hc']; auto. }
  assert (MIX : forall c, In c l -> overlaps s b off (v_shape ov) c /\ mixed d mu C c).
  { intros c Hc. apply HI in Hc. split; [exact Hc|]. destruct (HM c (overlaps_valid Hc)) as [[X _]|X]; [now left|now right]. }
  cbn [read_call cb_code] in RUN. rewrite El in RUN. cbn [plet] in RUN. unfold foreach_sequential in RUN.
  pose proof (@run_read_fold d ok ov off mu l Hreg (proj1 Hov) (fun c Hc => proj1 (HI c) Hc) out (array_of out)
    (repeat (zero_cell w) (N.to_nat (prodw b))) (@lists_array_of out)) as RF.
  destruct ALL as [GOOD|(c & Hc & Em & Hcl)].
  - left. exists moment.
    assert (FOLD : forall l, (forall c, In c l -> overlaps s b off (v_shape ov) c /\ exists st C', holds d st C' /\ mu (key c) = st (key c) /\ C' c = C c) ->
      forall bf out, out_view_ok ov (lenN out) -> any_buffer d bf ->
      exists bf' out', foldM (read_unit d mu ov off (v_shape ov)) l (bf, out) = Ok (bf', out') /\ read_done d ov off C l out out').
    { clear - ok Hreg. induction l as [|c l IH]; intros HL bf out Hov Hbuf.
      - exists bf, out. split; [reflexivity|]. split; [reflexivity|]. split; [intros i _ []|reflexivity].
      - destruct (HL c (or_introl eq_refl)) as [Ho HM].
        destruct (@good_unit d ok mu ov off C c bf out Hreg Hov Ho Hbuf HM) as (bf1 & out1 & E1 & B1 & D1).
        destruct (IH (fun c' H => HL c' (or_intror H)) bf1 out1) as (bf2 & out2 & E2 & D2).
        { destruct D1 as [-> _]. exact Hov. } { exact B1. }
        exists bf2, out2. split; [cbn [foldM]; rewrite E1; exact E2|]. eapply read_done_cons; eauto. }
    destruct (FOLD l) with (bf := repeat (zero_cell w) (N.to_nat (prodw b))) (out := out) as (bf' & out' & EF & L & V & FR).
    { intros c Hc. split; [now apply HI|now apply GOOD]. } { exact Hov. } { apply zeros_buffer. }
    rewrite EF in RF. destruct RF as (L' & o' & HL & RF). rewrite RF in RUN. injection RUN as <- <-.
    exists out'. split; [cbn [answer]; rewrite <- L'; now rewrite (elements_lists HL)|]. split; [exact RANGE|].
    split; [exact L|]. split.
    + intros i Hi. destruct (@region_elements d ok ov off i Hreg Hi) as [Hx Ho]. exists (val d C (vadd off i)).
      split; [apply V; [exact Hi|now apply HI]|]. exact (@value_shown d ok C _ (vadd off i) HR HC Hx (HV _ Hx)).
    + intros a Ha'. apply FR. intros i Hi _. now apply Ha'.
  - right. split; [exists c; split; [now apply HI|exact Hcl]|]. split.
    + intros HE. rewrite (@mixed_throws d ok mu ov off C l HE Hreg MIX (ex_intro _ c (conj Hc Em)) _ out Hov (zeros_buffer d _)) in RF.
      rewrite RUN in RF. cbn [snd] in RF. rewrite RF. reflexivity.
    + intros HE.
      destruct (@mixed_raw d ok mu ov off C l HE Hreg MIX _ out Hov (zeros_buffer d (N.to_nat (prodw b)))) as (bf' & out' & EF & L & V & FR).
      rewrite EF in RF. destruct RF as (L' & o' & HL & RF). rewrite RF in RUN. injection RUN as <- <-.
      exists moment, out'. split; [cbn [answer]; rewrite <- L'; now rewrite (elements_lists HL)|]. split; [exact RANGE|].
      split; [exact L|]. split.
      * intros i Hi. destruct (@region_elements d ok ov off i Hreg Hi) as [Hx Ho].
        destruct (HM _ (overlaps_valid Ho)) as [[_ X]|X]; [now left|].
        destruct (same_bytes (mu (key (chunk_of b (vadd off i)))) (Some [])) eqn:SB.
        { exfalso. apply same_bytes_ok in SB. destruct X as (st & C' & HC' & E & _). rewrite SB in E. symmetry in E.
          exact (@raw_nonempty d ok st C' _ HE (overlaps_valid Ho) HC' E). }
        right. exists (val d C (vadd off i)). split; [|exact (@value_shown d ok C _ (vadd off i) HR HC Hx (HV _ Hx))].
        apply V; [exact Hi|now apply HI|]. intros E. apply same_bytes_ok in E. congruence.
      * intros a Ha'. apply FR. intros i Hi _. now apply Ha'.
Qed.
End Plain.

Section Sharded.
Variable sd : sharded.
Hypothesis sok : sharded_ok sd.
Hypothesis Hw : can_write (d_mode (sd_base sd)) = true.
Variable m : N.
Notation d := (sd_base sd).
Notation w := (t_width (d_type (sd_base sd))).
Notation s := (d_shape (sd_base sd)).
Notation b := (d_chunks (sd_base sd)).
Notation cps := (sd_cps sd).
Notation valid := (valid_chunk (d_shape (sd_base sd)) (d_chunks (sd_base sd))).
Notation ok := (so_base sok).
Notation key := (chunk_key (d_key (sd_base sd))).
Hypothesis m_total : prod (sd_cps sd) * m < W64 - 1.
Hypothesis m_blob : forall data, buffer_of (t_width (d_type (sd_base sd))) (prod (d_chunks (sd_base sd))) data ->
      forall e, stored_as (d_codec (sd_base sd)) (concat data) e -> 0 < lenN e /\ lenN e <= m.
Notation all_shards := (fun _ : shape => True).
Notation holds_all := (holds_sh sd m (own_blob sd) own_shard all_shards).

Lemma agree_blobs coord blobs o : agree (write_blobs_code sd coord blobs (Ret o)) (s3_write_blobs_code sd coord blobs (Ret o)).
Proof using.
  unfold write_blobs_code, s3_write_blobs_code. destruct (negb _); [apply agree_ret|]. apply agree_plet. intros h.
  destruct (all_slots_empty _); [apply agree_set, agree_ret|apply agree_write, agree_ret].
Qed.
Lemma agree_inner c blob : agree (inner_blob_code sd c blob) (s3_inner_blob_code sd c blob).
Proof using.
  unfold inner_blob_code, s3_inner_blob_code. apply agree_plet. intros k. apply agree_plet. intros sl. apply agree_plet. intros h.
  apply agree_pread. intros f. apply agree_plet. intros bls. apply agree_plet. intros bls'. apply agree_blobs.
Qed.
Lemma agree_sh_op o : agree (cb_code (sharded_body sd (KOp o))) (cb_code (s3_sharded_body sd (KOp o))).
Proof using.
  destruct o as [off n src|c data|c]; cbn [sharded_body s3_sharded_body array_call_code].
  - unfold sh_write_request_code, s3_sh_write_call. cbn [no_output cb_code].
    destruct (bind _ _) as [g|e|]; cbn [unguarded no_output cb_code plet]; [|apply agree_ret|apply agree_ret].
    unfold foreach_sequential. apply (@agree_batch _ (shard_write_unit_code sd src off n) (s3_shard_write_unit_code sd src off n)).
    intros u bf. unfold shard_write_unit_code, s3_shard_write_unit_code. apply agree_plet. intros h.
    apply agree_pread. intros f. apply agree_plet. intros r. apply agree_blobs.
  - unfold sh_write_chunk_code, s3_sh_write_chunk_call. cbn [no_output cb_code].
    destruct (if negb _ then _ else _) as [blob|e|]; cbn [unguarded no_output cb_code plet]; [apply agree_inner|apply agree_ret|apply agree_ret].
  - apply agree_inner.
Qed.
Lemma s3_sharded_op o st st' C a : array_op_ok d o -> (forall k, st k = st' k) -> holds_all st C -> represents d C a ->
  exists st1 st2 C', call_alone (s3_sharded_body sd) (KOp o) st = (st1, Ok []) /\ run_sharded_op sd o st' = (st2, Ok tt) /\
    (forall k, st1 k = st2 k) /\ holds_all st1 C' /\ represents d C' (apply_op d o a).
Proof using sok Hw m_total m_blob.
  intros Ho E HC HR.
  destruct (@sharded_op sd sok Hw m m_total m_blob o st st' C a Ho E HC HR) as (st1 & st2 & C' & E1 & E2 & K & HC' & HR').
  destruct (@call_agrees _ _ (sharded_body sd) (s3_sharded_body sd) (KOp o) (KOp o) st st st1 (fun _ => Logic.eq_refl) (@agree_sh_op o)) as (st3 & E3 & K3).
  - destruct o; reflexivity.
  - destruct o; reflexivity.
  - destruct o; reflexivity.
  - exact E1.
  - exists st3, st2, C'. split; [exact E3|]. split; [exact E2|]. split; [intros k; now rewrite <- K3|].
    split; [|exact HR']. eapply holds_sh_ext; [|exact HC']. intros k. now rewrite K3.
Qed.
Lemma s3_sharded_read ov off out st C : region_ok d off (v_shape ov) -> out_view_ok ov (lenN out) -> holds_all st C ->
  exists out', call_alone (s3_sharded_body sd) (KRead ov off out) st = (st, Ok out') /\ sh_read_subarray sd st ov off out = Ok out' /\
    lenN out' = lenN out /\
    (forall i, in_shape (v_shape ov) i -> getN out' (out_addr ov i) = Ok (val d C (vadd off i))) /\
    (forall a, (forall i, in_shape (v_shape ov) i -> a <> out_addr ov i) -> getN out' a = getN out a).
Proof using sok m_total m_blob. exact (@sharded_read sd sok m m_total m_blob ov off out st C). Qed.

Lemma puts_blobs coord blobs o : length coord = length b -> puts (key coord) (s3_write_blobs_code sd coord blobs (Ret o)).
Proof using sok.
  intros L. unfold s3_write_blobs_code. destruct (negb _); [apply puts_ret|].
  destruct (shard_handle_ok sok L) as [bs ->]. cbn [plet ch_key].
  destruct (all_slots_empty _); apply puts_set.
Qed.
Lemma puts_shard src off n g bf : length (fst g) = length b -> puts (key (fst g)) (s3_shard_write_unit_code sd src off n g bf).
Proof using sok.
  intros L. unfold s3_shard_write_unit_code. apply puts_plet. intros h _. apply puts_pread. intros v.
  apply puts_plet. intros r _. now apply puts_blobs.
Qed.
Lemma puts_inner c blob : valid c -> puts (key (shard_of cps c)) (s3_inner_blob_code sd c blob).
Proof using sok.
  intros Hc. pose proof (shard_of_len sok (valid_len Hc)) as LK. unfold s3_inner_blob_code.
  apply puts_plet. intros k Ek.
  rewrite (@shard_id_spec c _ (cps_pos sok)) in Ek by (rewrite (cps_len sok); now apply valid_len). injection Ek as <-.
  apply puts_plet. intros sl _. apply puts_plet. intros h _. apply puts_pread. intros f.
  apply puts_plet. intros bls _. apply puts_plet. intros bls' _. now apply puts_blobs.
Qed.

Lemma s3_sh_call_files c m0 m' : client_call_ok d c -> halted (cb_code (s3_sharded_body sd c)) m0 m' -> forall k,
  fst m' k = fst m0 k \/ fst m' k = fst (fst (run (cb_code (s3_sharded_body sd c)) m0)) k.
Proof using sok Hw.
  intros Hc H k.
  assert (ONE : forall key0 p, puts key0 p -> cb_code (s3_sharded_body sd c) = p ->
    fst m' k = fst m0 k \/ fst m' k = fst (fst (run (cb_code (s3_sharded_body sd c)) m0)) k).
  { intros key0 p T E. rewrite E in *. destruct (T _ _ H) as [F V].
    destruct (string_dec k key0) as [->|Hk]; [exact V|left; now apply F]. }
  destruct c as [ov off out|[off n src|c data|c]]; cbn [client_call_ok array_op_ok s3_sharded_body] in *.
  - destruct Hc as [Hreg _]. left. pose proof (@reads_call sd sok ov off out Hreg) as R.
    revert R H. generalize (cb_code (sh_read_call sd ov off out)) as p.
    generalize (map (fun g => key (fst g)) (groups_of sd off (v_shape ov))) as ks. clear.
    intros ks p R H. revert ks R. induction H as [p mm|f mm m' H IH]; intros ks R; [reflexivity|].
    destruct (reads_once_step R Logic.eq_refl mm) as [E [ks' R']]. rewrite (IH _ R'). now rewrite E.
  - destruct Hc as [Hreg Hsrc]. destruct (@groups_facts sd sok off n Hreg) as (E & _ & HL & ND).
    unfold s3_sh_write_call in *. cbn [no_output cb_code] in *. rewrite Hw in *. cbn [negb] in *. rewrite E in *. cbn [plet] in *.
    destruct (@puts_batch _ (fun g => key (fst g)) (fun g bf => s3_shard_write_unit_code sd src off n g bf) (groups_of sd off n)) with
      (b := repeat (d_fill d) (N.to_nat (prodw b))) (m := m0) (m' := m') (k := k) as [_ V]; auto.
    intros u bf Hu. apply puts_shard. now apply HL.
  - destruct Hc as [Hv Hd]. apply (ONE (key (shard_of cps c)) (cb_code (s3_sh_write_chunk_call sd c data))); [|reflexivity].
    cbn [s3_sh_write_chunk_call no_output cb_code]. apply puts_plet. intros blob _. now apply puts_inner.
  - apply (ONE (key (shard_of cps c)) (s3_inner_blob_code sd c None)); [now apply puts_inner|reflexivity].
Qed.

Theorem s3_sharded_reader_m pre st00 st0 calls wr cs y1 y2 t ov off out rest r : Forall (array_op_ok d) pre ->
  (forall c, valid c -> st00 (shard_key sd c) = None) -> run_sharded_ops sd pre st00 = (st0, Ok tt) ->
  Forall (Forall (client_call_ok d)) calls -> nth_error calls wr = Some cs ->
  (forall t' cs', t' <> wr -> nth_error calls t' = Some cs' -> Forall read_only cs') ->
  reach (clients_step (s3_sharded_body sd)) (clients_init st0 calls) y1 -> t <> wr ->
  nth_error (k_clients y1) t = Some (KIdle, KRead ov off out :: rest) ->
  reach (clients_step (s3_sharded_body sd)) y1 y2 ->
  nth_error (answers_to t (k_log y2)) (length (answers_to t (k_log y1))) = Some r ->
  let a0 := apply_ops d pre (fun _ => d_fill d) in
  let lo := length (calls_by wr (k_log y1)) in
  let hi := length (calls_by wr (k_log y2)) in
  exists moment out', r = Ok out' /\ (forall k, (lo <= moment k <= S hi)%nat) /\
     shows_region d (patchwork sd cs a0 moment) ov off out out'.
Proof using sok Hw m_total m_blob.
  intros Hpre He Er HG Hcs Hro R1 Ht E1 R2 Ha a0 lo hi.
  destruct (@run_sharded_ops_spec sd sok m m_total m_blob (own_blob sd) (@own_blob_ok sd) own_shard (@own_shard_ok sd) all_shards
    pre (fun _ => Logic.I) Hw Hpre st00 (fun _ => None) (fun _ => d_fill d)
    (@holds_sh_empty sd sok m m_total m_blob (own_blob sd) (@own_blob_ok sd) own_shard (@own_shard_ok sd) all_shards st00 He)
    (@represents_empty d)) as (st1 & C1 & EE & HC & HR & _).
  rewrite Er in EE. injection EE as <-. fold a0 in HR.
  assert (HC0 : cells d a0) by exact (@apply_ops_cells d ok pre Hpre _ (fun _ _ => do_fill ok)).
  assert (Gcs : Forall (client_call_ok d) cs).
  { rewrite Forall_forall in HG. apply HG. now apply nth_error_In in Hcs. }
  set (good := fun c => client_call_ok d c /\ read_only c).
  assert (OTH : forall t' cs', t' <> wr -> nth_error calls t' = Some cs' -> Forall good cs').
  { intros t' cs' Hn E. pose proof (Hro t' cs' Hn E) as F. rewrite Forall_forall in HG, F |- *.
    intros c Hc. split; [|now apply F]. apply nth_error_In in E. specialize (HG _ E). rewrite Forall_forall in HG. now apply HG. }
  assert (GRO : forall c, good c -> exists ks, reads_once ks (cb_code (s3_sharded_body sd c))).
  { intros [ov' off' out'|o] [G1 G2]; [|destruct G2]. eexists. apply (@reads_call sd sok). apply G1. }
  destruct (@reader_sees _ (s3_sharded_body sd) st0 calls wr cs good (fun p => exists ks, reads_once ks p) Hcs OTH
    (fun f m '(ex_intro _ ks H) => reads_once_step H Logic.eq_refl m) GRO y1 y2 t (KRead ov off out) rest r R1 Ht E1 R2 Ha)
    as ([[Hreg Hov] _] & r0 & o & -> & SEEN).
  set (base := base (s3_sharded_body sd) st0 cs) in *.
  unfold count in SEEN. fold lo hi in SEEN.
  assert (Hlh : (lo <= hi)%nat).
  { unfold lo, hi. clear - R2. induction R2 as [|y y' _ IH H]; [lia|]. pose proof (count_step wr H). unfold count in *. lia. }
  assert (PRE : forall j, Forall (client_call_ok d) (firstn j cs)).
  { intros j. rewrite Forall_forall in Gcs |- *. intros c Hc. apply Gcs. rewrite <- (firstn_skipn j cs). apply in_or_app. now left. }
  pose proof (fun j => @alone_spec d ok (s3_sharded_body sd) (run_sharded_op sd) (sh_read_subarray sd) holds_all
      (fun st C x HC Hx => @val_cell_sh sd sok m (own_blob sd) own_shard all_shards st C x Logic.I HC Hx)
      s3_sharded_op s3_sharded_read (firstn j cs) (PRE j) st0 C1 a0 HC HR HC0) as AL.
  destruct (@choose_upto (fun j C => holds_all (base j) C /\ represents d C (apply_ops d (ops_of (firstn j cs)) a0)) (S hi)) as [F HF].
  { intros j. destruct (AL j) as (_ & C & X1 & X2 & _). exists C. split; [exact X1|exact X2]. }
  assert (CELLS : forall j, cells d (apply_ops d (ops_of (firstn j cs)) a0)).
  { intros j. destruct (AL j) as (_ & C & _ & _ & X). exact X. }
  cbn [s3_sharded_body] in SEEN. destruct (@groups_facts sd sok off (v_shape ov) Hreg) as (Eg & GO & GL & GN).
  destruct (seen_mixed (@reads_call sd sok ov off out Hreg) GN SEEN (base lo)) as (mu & M1 & M2 & RUN).
  assert (KEYS : forall k, exists j, (lo <= j <= S hi)%nat /\ mu k = base j k).
  { intros k. destruct (M1 k) as [E|(st & (j & Hj & P) & E)]; [exists lo; split; [lia|exact E]|].
    destruct P as [->|(c & m' & Nc & Hh & ->)]; [exists j; split; [lia|exact E]|].
    assert (Gc : client_call_ok d c).
    { rewrite Forall_forall in Gcs. apply Gcs. now apply nth_error_In in Nc. }
    destruct (@s3_sh_call_files c _ _ Gc Hh k) as [V|V]; cbn [fst] in V.
    - exists j. split; [lia|]. now rewrite E, V.
    - exists (S j). split; [lia|]. rewrite E, V. unfold base. now rewrite (base_S _ _ Nc). }
  set (moment := moment_of sd base lo (S hi) mu).
  assert (RANGE : forall k, (lo <= moment k <= S hi)%nat) by (intros k; apply moment_range; lia).
  set (Cmix := fun c => F (moment (shard_of cps c)) c).
  assert (HALL : holds_all mu Cmix).
  { intros c Hc _. destruct (HF _ (proj2 (RANGE (shard_of cps c)))) as [HFc _].
    destruct (HFc c Hc Logic.I) as (blobs & (S1 & S2 & S3) & (Q1 & Q2 & Q3)).
    exists blobs. split.
    - split; [exact S1|]. split; [exact S2|]. unfold moment in S3. rewrite <- (moment_same (KEYS _)) in S3. exact S3.
    - split; [exact Q1|]. split; [exact Q2|]. intros c' Hc' Ec'. unfold Cmix. rewrite Ec'. now apply Q3. }
  exists moment.
  destruct (@s3_sharded_read ov off out mu Cmix Hreg Hov HALL) as (out' & EC & _ & L & V & FR).
  unfold call_alone in EC. cbn [s3_sharded_body] in EC. cbn [sh_read_call cb_code cb_out cb_size] in EC, RUN.
  rewrite RUN in EC. cbn [fst snd] in EC. injection EC as EC.
  exists out'. split; [exact EC|]. split; [exact RANGE|].
  apply (@region_shown d ok holds_all
    (fun st C x HC Hx => @val_cell_sh sd sok m (own_blob sd) own_shard all_shards st C x Logic.I HC Hx)
    ov off out out' mu Cmix); auto.
  + intros x Hx. unfold patchwork. destruct (HF _ (proj2 (RANGE (shard_of cps (chunk_of b x))))) as [_ HRj]. exact (HRj x Hx).
  + intros x Hx. unfold patchwork. now apply CELLS.
Qed.
End Sharded.

Theorem s3_sharded_reader sd pre st00 st0 calls wr cs y1 y2 t ov off out rest r : sharded_ok sd ->
  can_write (d_mode (sd_base sd)) = true -> Forall (array_op_ok (sd_base sd)) pre ->
  (forall c, valid_chunk (d_shape (sd_base sd)) (d_chunks (sd_base sd)) c -> st00 (shard_key sd c) = None) ->
  run_sharded_ops sd pre st00 = (st0, Ok tt) ->
  Forall (Forall (client_call_ok (sd_base sd))) calls -> nth_error calls wr = Some cs ->
  (forall t' cs', t' <> wr -> nth_error calls t' = Some cs' -> Forall read_only cs') ->
  reach (clients_step (s3_sharded_body sd)) (clients_init st0 calls) y1 -> t <> wr ->
  nth_error (k_clients y1) t = Some (KIdle, KRead ov off out :: rest) ->
  reach (clients_step (s3_sharded_body sd)) y1 y2 ->
  nth_error (answers_to t (k_log y2)) (length (answers_to t (k_log y1))) = Some r ->
  let a0 := apply_ops (sd_base sd) pre (fun _ => d_fill (sd_base sd)) in
  let lo := length (calls_by wr (k_log y1)) in
  let hi := length (calls_by wr (k_log y2)) in
  exists moment out', r = Ok out' /\ (forall k, (lo <= moment k <= S hi)%nat) /\
     shows_region (sd_base sd) (patchwork sd cs a0 moment) ov off out out'.
Proof.
  intros sok Hw. destruct (so_blob sok) as (m & M1 & M2).
  exact (@s3_sharded_reader_m sd sok Hw m M1 M2 pre st00 st0 calls wr cs y1 y2 t ov off out rest r).
Qed.
