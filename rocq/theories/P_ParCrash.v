(** Lemmas for writes on several threads that are interrupted. *)
From Verif Require Import M_Base M_Text M_Key M_Blocking M_View M_Bytes M_N5Header M_Format
  M_Mode M_Shard M_Dataset M_Sharded M_Access M_Pool M_Parallel M_Crash M_ParCrash
  S_Array S_Grid S_Bytes S_Text S_Format S_Shard S_Dataset S_Access S_Sharded S_File S_Pool S_Parallel S_Crash
  P_Base P_Blocking P_Roi P_View P_Bytes P_Key P_Format P_Dataset P_Access P_Read P_History P_Shard P_Sharded P_Pool P_Foreach P_Parallel P_ParWrite P_ParSharded P_ParHistory P_Crash.
From Coq Require Import Sorted.
Import List ListNotations.
Local Open Scope list_scope.

(** ** Part of the code of a thread *)
Inductive goes : code -> pmem -> code -> pmem -> Prop :=
| goes_refl p m : goes p m p m
| goes_act f m p' m' : goes (snd (f m)) (fst (f m)) p' m' -> goes (Act f) m p' m'.
Lemma goes_snoc p m f m' : goes p m (Act f) m' -> goes p m (snd (f m')) (fst (f m')).
Proof.
  intros H. remember (Act f) as q eqn:E. induction H as [p m|g m p' m' H IH]; subst.
  - apply goes_act, goes_refl.
  - apply goes_act. auto.
Qed.
Lemma goes_crash p m q m' x : goes p m q m' -> crash q m' x -> crash p m x.
Proof. induction 1 as [|f m p' m' H IH]; intros C; [exact C|]. apply crash_later. auto. Qed.

(** A crash of code that runs beside other code. *)
Lemma set_key_get st key v (m : pmem) l : pget (set_key st key v, snd m) l = pget (st, snd m) l \/ l = inl key.
Proof.
  destruct l as [k|a]; [|now left]. cbn. unfold set_key. destruct (String.eqb_spec k key) as [->|]; [now right|now left].
Qed.
Lemma crash_beside W R q : pconf W R q -> (forall l, W l \/ ~ W l) -> forall m m' x, agree pget (either W R) m m' -> crash q m x ->
  exists x', crash q m' x' /\ agree pget W x x'.
Proof.
  intros C D m m' x A H. revert C m' A. induction H as [p m|f m x H IH|f m key a b i H1 H2]; intros C m' A.
  - exists m'. split; [constructor|]. intros l Hl. apply A. now left.
  - inversion C as [|f' C1 C2 C3]; subst. destruct (C1 _ _ A) as [E1 E2].
    destruct (IH (C3 m) (fst (f m'))) as (x' & X1 & X2).
    { intros l Hl. apply E2. now apply A. }
    exists x'. split; [|exact X2]. apply crash_later. now rewrite <- E1.
  - inversion C as [|f' C1 C2 C3]; subst. destruct (C1 _ _ A) as [E1 E2]. destruct (D (inl key)) as [HW|HW].
    + pose proof (A _ (or_introl HW)) as AK. cbn in AK. injection AK as AK.
      pose proof (E2 (inl key)) as EK. cbn in EK. rewrite AK in EK. specialize (EK eq_refl). injection EK as EK.
      exists (set_key (fst m') key (Some (a ++ firstn i b)), snd m'). split.
      * apply crash_torn; [now rewrite <- AK|now rewrite <- EK].
      * intros l Hl. specialize (A _ (or_introl Hl)). destruct l as [k|y]; cbn in *; [|exact A].
        unfold set_key. destruct (String.eqb k key); [reflexivity|exact A].
    + pose proof (C2 m _ HW) as N. cbn in N. rewrite H1, H2 in N. injection N as N. symmetry in N.
      rewrite (app_same i N). exists m'. split; [constructor|].
      intros l Hl. rewrite <- (A _ (or_introl Hl)). destruct l as [k|y]; cbn; [|reflexivity]. f_equal. now apply set_same.
Qed.

Section Pool.
Variables (task : nat -> nat -> list cell -> code) (junk I : list cell -> Prop) (m n : nat).
Variables (F : nat -> ploc -> Prop) (R : ploc -> Prop) (m0 : pmem) (fin : nat -> pmem) (res : nat -> outcome unit).
Hypothesis tok : tasks_ok pget m task I F R m0 fin res.
Hypothesis junk_ok : forall b, junk b -> I b.
Hypothesis n_pos : (0 < n)%nat.
Hypothesis F_dec : forall k l, F k l \/ ~ F k l.
Notation agree := (agree pget).

(** What a thread did so far it would also have done alone. *)
Definition alone (p : pool pmem (list cell)) : Prop := forall tid k q, nth_error (p_workers p) tid = Some (WRun k q) ->
  exists b m', I b /\ goes (task k tid b) m0 q m' /\ agree (either (F k) R) m' (p_mem p).

Lemma alone_same p p' : alone p -> p_mem p' = p_mem p ->
  (forall tid k q, nth_error (p_workers p') tid = Some (WRun k q) -> nth_error (p_workers p) tid = Some (WRun k q)) -> alone p'.
Proof. intros A E H tid k q Hw. rewrite E. now apply A, H. Qed.

Lemma alone_worker p tid p' : pool_ok n p -> mem_ok pget I m F R m0 fin res p -> alone p -> worker_step task junk p tid p' -> alone p'.
Proof.
  intros P H A St. pose proof H as [H1 H2 H3 H4 H5].
  destruct St as [b k q Hw Hs Hq|b Hw Hs|b Hw Hs Hq|k f Hw|k b Hw|k e b Hw Hj|b Hw]; unfold set_worker;
    pose proof (nth_error_lt Hw) as Ht; pose proof (H1 _ _ Hw) as Hok; cbn in Hok.
  - assert (Hk : In k (p_queue p)) by (rewrite Hq; now left). pose proof (queue_lt P Hk) as Hkm.
    assert (Hn : forall x, ~ In (k, x) (p_log p)) by (intros x X; apply (log_queue P X); exact Hk).
    intros t k' q' X. cbn [p_workers p_mem] in *. apply nth_error_set in X. destruct X as [(-> & E & _)|(N & X)]; [|exact (A _ _ _ X)].
    injection E as -> ->. exists b, m0. split; [exact Hok|]. split; [constructor|]. apply agree_sym.
    apply agree_either; [apply H2; auto; lia|]. now apply (mem_readonly tok).
  - eapply alone_same; [exact A|reflexivity|]. intros t k q X. apply nth_error_set in X. destruct X as [(_ & E & _)|(_ & X)]; [discriminate|exact X].
  - eapply alone_same; [exact A|reflexivity|]. intros t k q X. apply nth_error_set in X. destruct X as [(_ & E & _)|(_ & X)]; [discriminate|exact X].
  - destruct Hok as (K1 & K2 & K3 & K4). intros t k' q' X. cbn [p_workers p_mem] in *.
    apply nth_error_set in X. destruct X as [(-> & E & _)|(N & X)].
    + injection E as -> ->. destruct (A _ _ _ Hw) as (b & m' & B1 & B2 & B3). exists b, (fst (f m')). split; [exact B1|].
      inversion K2 as [|f' C1 C2 C3]; subst f'. destruct (C1 _ _ B3) as [E1 E2]. rewrite <- E1. split; [now apply goes_snoc|].
      intros l Hl. apply E2. now apply B3.
    + destruct (A _ _ _ X) as (b & m' & B1 & B2 & B3). exists b, m'. split; [exact B1|]. split; [exact B2|].
      eapply agree_trans; [exact B3|]. pose proof (H1 _ _ X) as (J1 & _).
      apply (access_other tok (p_mem p) K1 J1); [|exact K2]. intros <-. apply N. eapply (po_distinct P); eauto.
  - eapply alone_same; [exact A|reflexivity|]. intros t k' q X. apply nth_error_set in X. destruct X as [(_ & E & _)|(_ & X)]; [discriminate|exact X].
  - eapply alone_same; [exact A|reflexivity|]. intros t k' q X. apply nth_error_set in X. destruct X as [(_ & E & _)|(_ & X)]; [discriminate|exact X].
  - eapply alone_same; [exact A|reflexivity|]. intros t k' q X. apply nth_error_set in X. destruct X as [(_ & E & _)|(_ & X)]; [discriminate|exact X].
Qed.

Lemma alone_wake p tid b : alone p -> alone (wake p tid b).
Proof.
  intros A. eapply alone_same; [exact A|reflexivity|]. cbn. unfold set_worker. intros t k q X.
  apply nth_error_set in X. destruct X as [(_ & E & _)|(_ & X)]; [discriminate|exact X].
Qed.

Lemma alone_caller p c p' c' : alone p -> caller_step m p c p' c' -> alone p'.
Proof.
  intros A St. destruct St as [k p' Hk Hp|k Hk Hp|k p' Hn|k Hk|k exc o Hk Ho|k exc Hk|exc|exc|exc Hx]; auto.
  - unfold push in Hp. destruct (p_stop p); [discriminate|]. injection Hp as <-. exact A.
  - destruct Hn; [now apply alone_wake|exact A].
  - eapply alone_same; [exact A|reflexivity|]. intros t k q X. cbn [notify_all p_workers] in X.
    apply nth_error_notify in X. destruct X as (w0 & X & E). destruct w0; try discriminate E. rewrite X. now rewrite E.
Qed.

Lemma alone_reach bs s : Forall I bs -> length bs = n ->
  reach (foreach_step task junk m) (pool_init m0 bs, CEnqueue 0) s -> alone (fst s).
Proof.
  intros HI Hn H. induction H as [|s s' H IH St].
  - intros tid k q X. cbn in X. apply nth_error_In in X. apply in_map_iff in X. destruct X as (b & E & _). discriminate.
  - pose proof (inv_reach tok junk_ok n_pos HI Hn H) as (P & Hm & _). 
    destruct St as [s1 s2 St|p c tid b Sw]; [destruct St as [p c tid p' Sw|p c p' c' Sc]|]; cbn [fst snd] in *.
    + eapply alone_worker; eauto.
    + eapply alone_caller; eauto.
    + now apply alone_wake.
Qed.

(** The threads that run a task. *)
Definition runs (ws : list (wstate pmem (list cell))) (k : nat) : Prop := exists q, In (WRun k q) ws.
Definition all_apart (ws : list (wstate pmem (list cell))) : Prop :=
  (forall k q, In (WRun k q) ws -> (k < m)%nat /\ pconf (F k) R q) /\
  forall t t' k q q', nth_error ws t = Some (WRun k q) -> nth_error ws t' = Some (WRun k q') -> t = t'.

Lemma apart_tail w ws : all_apart (w :: ws) -> all_apart ws /\ forall k q, w = WRun k q -> ~ runs ws k.
Proof.
  intros [H1 H2]. split; [split|].
  - intros k q H. apply (H1 k q). now right.
  - intros t t' k q q' X Y. assert (S t = S t') by (eapply H2; cbn; eauto). lia.
  - intros k q -> [q' H]. apply In_nth_error in H as [t H]. assert (0 = S t)%nat by (eapply H2; cbn; eauto). lia.
Qed.

Lemma torn_alone ws mem mem' : all_apart ws -> torn_threads ws mem mem' ->
  (forall l, (forall k, runs ws k -> ~ F k l) -> pget mem' l = pget mem l) /\
  (forall k q, In (WRun k q) ws -> exists x, crash q mem x /\ agree (F k) mem' x).
Proof.
  intros A T. induction T as [mem|w ws mem mem' T IH|k f ws mem mem' key a b i H1 H2 T IH].
  - split; [reflexivity|]. intros k q [].
  - destruct (apart_tail A) as [A' N]. destruct (IH A') as [I1 I2]. split.
    + intros l Hl. apply I1. intros k [q Hq]. apply Hl. exists q. now right.
    + intros k q [->|Hq]; [|now apply I2]. exists mem. split; [constructor|]. intros l Hl. apply I1. intros k' Hk' X.
      destruct Hk' as [q' Hq']. destruct (proj1 A k q (or_introl eq_refl)) as [L _]. destruct (proj1 A' k' q' Hq') as [L' _].
      refine (to_disjoint tok L L' _ Hl X). intros <-. apply (N k q eq_refl). now exists q'.
  - destruct (apart_tail A) as [A' N]. destruct (IH A') as [I1 I2]. destruct (proj1 A k (Act f) (or_introl eq_refl)) as [L C].
    inversion C as [|f' C1 C2 C3]; subst f'.
    set (m1 := (set_key (fst mem) key (Some (a ++ firstn i b)), snd mem)) in *.
    assert (FR : forall l, ~ F k l -> pget m1 l = pget mem l).
    { intros l Hl. destruct (F_dec k (inl key)) as [HW|HW].
      - unfold m1. destruct (set_key_get (fst mem) key (Some (a ++ firstn i b)) mem l) as [E| ->]; [|contradiction].
        rewrite E. destruct l; reflexivity.
      - pose proof (C2 mem _ HW) as X. cbn in X. rewrite H1, H2 in X. injection X as X. symmetry in X.
        unfold m1. rewrite (app_same i X). destruct l as [k0|y]; cbn; [|reflexivity]. f_equal. now apply set_same. }
    split.
    + intros l Hl. rewrite I1.
      * apply FR. apply Hl. exists (Act f). now left.
      * intros k' [q' Hq']. apply Hl. exists q'. now right.
    + intros k' q' [E|Hq'].
      * injection E as <- <-. exists m1. split; [now apply crash_torn|]. intros l Hl. apply I1. intros k' [q' Hq'] X.
        destruct (proj1 A' k' q' Hq') as [L' _]. refine (to_disjoint tok L L' _ Hl X). intros <-. apply (N k _ eq_refl). now exists q'.
      * destruct (I2 _ _ Hq') as (x & X1 & X2). destruct (proj1 A' k' q' Hq') as [L' C'].
        destruct (@crash_beside (F k') R q' C' (F_dec k') m1 mem x) as (x' & Y1 & Y2); [|exact X1|].
        { intros l Hl. apply FR. intros X. destruct Hl as [Hl|Hl]; [|exact (to_readonly tok L X Hl)].
          refine (to_disjoint tok L L' _ X Hl). intros <-. apply (N k _ eq_refl). now exists q'. }
        exists x'. split; [exact Y1|]. eapply agree_trans; eauto.
Qed.

(** The memory after a crash, task by task. *)
Theorem pool_crash bs p c m' : Forall I bs -> length bs = n ->
  reach (foreach_step task junk m) (pool_init m0 bs, CEnqueue 0) (p, c) -> torn_threads (p_workers p) (p_mem p) m' ->
  (forall l, (forall k, (k < m)%nat -> ~ F k l) -> pget m' l = pget m0 l) /\
  exists current : list (nat * nat * list cell), (length current <= n)%nat /\ NoDup (map (fun x => fst (fst x)) current) /\
    (forall k tid b, In (k, tid, b) current -> (k < m)%nat /\ I b /\ exists x, crash (task k tid b) m0 x /\ agree (F k) m' x) /\
    (forall k, (k < m)%nat -> ~ In k (map (fun x => fst (fst x)) current) -> agree (F k) m' m0 \/ agree (F k) m' (fin k)).
Proof.
  intros HI Hn Hr HT. pose proof (alone_reach HI Hn Hr) as A. destruct (inv_reach tok junk_ok n_pos HI Hn Hr) as (P & Hm & _ & _).
  cbn [fst snd] in *.
  assert (AP : all_apart (p_workers p)).
  { split.
    - intros k q H. apply In_nth_error in H as [t H]. pose proof (mo_workers Hm H) as X. cbn in X. tauto.
    - intros t t' k q q'. apply (po_distinct P). }
  destruct (torn_alone AP HT) as [T1 T2].
  assert (LT : forall k, runs (p_workers p) k -> (k < m)%nat) by (intros k [q Hq]; apply (proj1 AP k q Hq)).
  split. { intros l Hl. rewrite T1; [now apply (mo_rest Hm)|]. intros k Hk. apply Hl. auto. }
  assert (X : forall ws o, (forall t, nth_error ws t = nth_error (p_workers p) (o + t)) ->
    exists current : list (nat * nat * list cell), (length current <= length ws)%nat /\ NoDup (map (fun x => fst (fst x)) current) /\
    (forall k tid b, In (k, tid, b) current -> runs ws k /\ I b /\ exists x, crash (task k tid b) m0 x /\ agree (F k) m' x) /\
    (forall k, runs ws k -> In k (map (fun x => fst (fst x)) current))).
  { induction ws as [|w ws IH]; intros o Ho.
    - exists []. cbn. repeat split; try lia; try constructor; try contradiction. intros k [q []].
    - destruct (IH (S o)) as (cu & C1 & C2 & C3 & C4). { intros t. pose proof (Ho (S t)) as Y. cbn [nth_error] in Y. rewrite Y. f_equal. lia. }
      assert (HW : nth_error (p_workers p) o = Some w) by (rewrite <- (Nat.add_0_r o), <- Ho; reflexivity).
      destruct w as [b|b|k q|b|].
      1,2,4,5: exists cu; cbn [length]; split; [lia|]; split; [exact C2|]; split;
        [intros k tid b' H; destruct (C3 _ _ _ H) as ((q & Hq) & X2); split; [exists q; now right|exact X2]|];
        intros k [q [E|Hq]]; [discriminate E|apply C4; now exists q].
      destruct (A _ _ _ HW) as (b & mb & B1 & B2 & B3). exists ((k, o, b) :: cu). cbn [length map fst].
      assert (NI : ~ In k (map (fun x => fst (fst x)) cu)).
      { intros Hin. apply in_map_iff in Hin as ([[k' t'] b'] & E & Hin). cbn in E. subst k'.
        destruct (C3 _ _ _ Hin) as ((q' & Hq') & _). apply In_nth_error in Hq' as [t Hq'].
        pose proof (Ho (S t)) as Y. cbn [nth_error] in Y. rewrite Hq' in Y. symmetry in Y.
        pose proof (po_distinct P HW Y). lia. }
      split; [lia|]. split; [now constructor|]. split.
      + intros k' tid' b' [E|Hin].
        * injection E as <- <- <-. split; [exists q; now left|]. split; [exact B1|].
          destruct (T2 k q (nth_error_In _ _ HW)) as (x & X1 & X2).
          destruct (proj1 AP k q (nth_error_In _ _ HW)) as [L Cq].
          destruct (@crash_beside (F k) R q Cq (F_dec k) (p_mem p) mb x) as (x' & Y1 & Y2); [now apply agree_sym|exact X1|].
          exists x'. split; [eapply goes_crash; eauto|]. eapply agree_trans; eauto.
        * destruct (C3 _ _ _ Hin) as ((q' & Hq') & X2). split; [exists q'; now right|exact X2].
      + intros k' [q' [E|Hq']]; [left; congruence|]. right. apply C4. now exists q'. }
  destruct (X (p_workers p) 0%nat (fun t => Logic.eq_refl)) as (cu & C1 & C2 & C3 & C4). exists cu.
  split; [rewrite <- (po_workers P); exact C1|]. split; [exact C2|]. split.
  - intros k tid b Hin. destruct (C3 _ _ _ Hin) as (X1 & X2). split; auto.
  - intros k Hk Hn'. assert (NR : ~ runs (p_workers p) k) by (intros Y; apply Hn', C4, Y).
    assert (SM : agree (F k) m' (p_mem p)).
    { intros l Hl. apply T1. intros k' Hk' X'. refine (to_disjoint tok Hk (LT _ Hk') _ Hl X'). intros <-. contradiction. }
    destruct (in_dec Nat.eq_dec k (map fst (p_log p))) as [Hlog|Hlog].
    + right. eapply agree_trans; [exact SM|]. apply in_map_iff in Hlog as ([k' tid] & E & Hlog). cbn in E. subst k'.
      pose proof (log_lt P Hlog) as L. destruct (nth_error (p_futures p) k) as [[o|]|] eqn:EF.
      * apply (mo_done Hm EF).
      * exfalso. destruct (po_pending P EF) as [Hq|(t & q & Hq)]; [exact (log_queue P Hlog Hq)|].
        apply NR. exists q. eapply nth_error_In; eauto.
      * apply nth_error_None in EF. lia.
    + left. eapply agree_trans; [exact SM|]. apply (mo_fresh Hm Hk). intros tid Hin. apply Hlog. apply in_map_iff. exists (k, tid). auto.
Qed.
End Pool.

(** ** Loops over units that each write one file *)
Section Units.
Variables (g : nat -> list cell -> code) (junk I : list cell -> Prop) (cnt : nat) (key : nat -> string).
Variables (m0 : pmem) (fin : nat -> pmem) (res : nat -> outcome unit).
Notation f := (fun _ i : nat => g i).
Hypothesis uok : tasks_ok pget cnt (fun i tid => f tid i) I (fun i => one_key (key i)) (fun _ => False) m0 fin res.
Hypothesis junk_ok : forall b, junk b -> I b.
Hypothesis one : forall i buf, (i < cnt)%nat -> one_write (key i) (g i buf).
Hypothesis all_ok : forall i, (i < cnt)%nat -> res i = Ok tt.

Lemma units_keys l : (forall i, In i l -> (i < cnt)%nat) -> NoDup l -> NoDup (map key l).
Proof.
  intros L. induction 1 as [|i l N ND IH]; [constructor|]. cbn. constructor; [|apply IH; intros; apply L; now right].
  intros H. apply in_map_iff in H as (j & E & Hj). refine (to_disjoint uok (L i (or_introl eq_refl)) (L j (or_intror Hj)) _ (l := inl (key i)) eq_refl _).
  - intros ->. contradiction.
  - unfold one_key. now rewrite E.
Qed.

(** A batch of units that runs alone. *)
Lemma batch_crash tid l b x : (forall i, In i l -> (i < cnt)%nat) -> NoDup l -> I b -> crash (batch_prog f tid l b) m0 x ->
  exists cut, (length cut <= 1)%nat /\ incl cut l /\
    (forall i, In i l -> ~ In i cut -> fst x (key i) = fst m0 (key i) \/ fst x (key i) = fst (fin i) (key i)) /\
    (forall i, In i cut -> torn (key i) (fst m0) (fst (fin i)) (fst x)).
Proof.
  intros L ND HI HC. change (fun _ i => g i) with (fun _ : nat => g) in HC.
  destruct (loop_crash (key := key) (fun i buf Hi => @one i buf (L i Hi)) (units_keys L ND) HC) as (be & cu & af & E & LC & I1 & I2 & I3 & I4).
  destruct (batch_run uok ND L tid HI (fun i _ => @agree_refl _ _ _ pget _ m0)) as (B1 & _ & _).
  assert (FE : forall l', (forall i, In i l' -> (i < cnt)%nat) -> first_error (map res l') = None).
  { induction l' as [|i l' IH]; intros Hl; [reflexivity|]. cbn. rewrite all_ok by (apply Hl; now left). apply IH. intros j Hj. apply Hl. now right. }
  rewrite started_all in B1; [|now apply FE|intros i Hi; rewrite all_ok; [discriminate|auto]].
  assert (FIN : forall i, In i l -> fst (fst (run (batch_prog (fun _ : nat => g) tid l b) m0)) (key i) = fst (fin i) (key i)).
  { intros i Hi. pose proof (B1 i Hi (inl (key i)) eq_refl) as X. cbn [pget] in X. injection X as X. exact X. }
  exists (filter (fun i => if in_dec string_dec (key i) cu then true else false) l).
  assert (CU : forall i, In i (filter (fun i => if in_dec string_dec (key i) cu then true else false) l) <-> In i l /\ In (key i) cu).
  { intros i. rewrite filter_In. destruct (in_dec string_dec (key i) cu); intuition discriminate. }
  split; [|split; [|split]].
  - destruct cu as [|k [|? ?]]; [| |cbn in LC; lia].
    + assert (X : forall l', filter (fun i => if in_dec string_dec (key i) [] then true else false) l' = []).
      { induction l' as [|i l' IH]; [reflexivity|exact IH]. } rewrite X. cbn. lia.
    + clear - ND L uok. assert (NK := units_keys L ND). clear - NK. induction l as [|i l IH]; [cbn; lia|].
      cbn [map] in NK. inversion NK as [|? ? NI NK']; subst. cbn [filter]. destruct (in_dec string_dec (key i) [k]) as [[->|[]]|Hk]; [|auto].
      assert (X : filter (fun i0 => if in_dec string_dec (key i0) [key i] then true else false) l = []).
      { clear - NI. induction l as [|j l IH]; [reflexivity|]. cbn [filter]. destruct (in_dec string_dec (key j) [key i]) as [[E|[]]|Hk].
        - exfalso. apply NI. left. now symmetry.
        - apply IH. intros H. apply NI. now right. }
      rewrite X. cbn. lia.
  - intros i Hi. now apply CU.
  - intros i Hi Hn. assert (Hk : In (key i) (map key l)) by now apply in_map. rewrite E, !in_app_iff in Hk. destruct Hk as [Hk|[Hk|Hk]].
    + right. rewrite I1 by exact Hk. now apply FIN.
    + exfalso. apply Hn. now apply CU.
    + left. now apply I2.
  - intros i Hi. apply CU in Hi as [Hi Hk]. unfold torn. rewrite <- (FIN i Hi). now apply I3.
Qed.

(** What a loop leaves behind. *)
Theorem loop_stopped threads est b0 m' : I b0 -> foreach_crash threads est cnt f junk b0 m0 m' ->
  (forall k, (forall i, (i < cnt)%nat -> k <> key i) -> fst m' k = fst m0 k) /\
  exists cut, (length cut <= N.to_nat (N.max 1 threads))%nat /\ (forall i, In i cut -> (i < cnt)%nat) /\
    (forall i, (i < cnt)%nat -> ~ In i cut -> fst m' (key i) = fst m0 (key i) \/ fst m' (key i) = fst (fin i) (key i)) /\
    (forall i, In i cut -> torn (key i) (fst m0) (fst (fin i)) (fst m')).
Proof.
  intros HI [x Ht HC|p c x Ht Hr HT].
  - unfold foreach_sequential in HC. assert (L : forall i, In i (seq 0 cnt) -> (i < cnt)%nat) by (intros i Hi; apply in_seq in Hi; lia).
    destruct (batch_crash L (seq_NoDup cnt 0) HI HC) as (cut & C1 & C2 & C3 & C4).
    change (fun _ i => g i) with (fun _ : nat => g) in HC.
    destruct (loop_crash (key := key) (fun i buf Hi => @one i buf (L i Hi)) (units_keys L (seq_NoDup cnt 0)) HC) as (_ & _ & _ & _ & _ & _ & _ & _ & I4).
    split.
    + intros k Hk. apply I4. intros H. apply in_map_iff in H as (i & <- & Hi). exact (Hk i (L i Hi) eq_refl).
    + exists cut. split; [lia|]. split; [intros i Hi; now apply L, C2|]. split; [|exact C4].
      intros i Hi. apply C3. apply in_seq. lia.
  - set (bss := batches cnt (chunked_work est) (seq 0 cnt)) in *.
    assert (C : concat bss = seq 0 cnt).
    { apply batches_concat; [apply chunked_work_pos|]. now rewrite seq_length. }
    pose proof (batches_ok uok C HI) as bok. destruct (bss_parts C) as [P1 P2].
    assert (D : forall k l, batch_F (fun i => one_key (key i)) (nth k bss []) l \/ ~ batch_F (fun i => one_key (key i)) (nth k bss []) l).
    { intros k [s|a]; [|right; intros (i & _ & E); discriminate E]. destruct (in_dec string_dec s (map key (nth k bss []))) as [H|H].
      - left. apply in_map_iff in H as (i & <- & Hi). exists i. split; [exact Hi|reflexivity].
      - right. intros (i & Hi & E). injection E as ->. apply H. now apply in_map. }
    assert (n_pos : (0 < N.to_nat threads)%nat) by lia.
    destruct (pool_crash bok junk_ok n_pos D (Forall_forall_repeat (N.to_nat threads) HI) (repeat_length _ _) Hr HT) as (X1 & cur & X2 & X3 & X4 & X5).
    split.
    + intros k Hk. assert (E : pget x (inl k) = pget m0 (inl k)).
      { apply X1. intros j Hj (i & Hi & E). injection E as ->. apply (Hk i); [|reflexivity]. eapply (batch_unit C); eauto. }
      cbn in E. congruence.
    + assert (Y : forall cur', (forall y, In y cur' -> In y cur) -> exists cut, (length cut <= length cur')%nat /\
        (forall i, In i cut -> exists k, In k (map (fun x => fst (fst x)) cur') /\ In i (nth k bss [])) /\
        (forall i k, In k (map (fun x => fst (fst x)) cur') -> In i (nth k bss []) -> ~ In i cut ->
           fst x (key i) = fst m0 (key i) \/ fst x (key i) = fst (fin i) (key i)) /\
        (forall i, In i cut -> torn (key i) (fst m0) (fst (fin i)) (fst x))).
      { induction cur' as [|[[k tid] b] cur' IH]; intros Hs.
        - exists []. cbn. repeat split; try lia; try tauto.
        - destruct IH as (cut & Y1 & Y2 & Y3 & Y4); [intros y Hy; apply Hs; now right|].
          destruct (X4 k tid b (Hs _ (or_introl eq_refl))) as (Lk & HIb & y & Cy & Ay).
          destruct (batch_crash (@batch_unit _ _ C k) (P1 k) HIb Cy) as (cut1 & Z1 & Z2 & Z3 & Z4).
          assert (SM : forall i, In i (nth k bss []) -> fst x (key i) = fst y (key i)).
          { intros i Hi. assert (E : pget x (inl (key i)) = pget y (inl (key i))) by (apply Ay; exists i; split; [exact Hi|reflexivity]).
            cbn in E. congruence. }
          exists (cut1 ++ cut). split; [rewrite app_length; cbn; lia|]. split; [|split].
          + intros i Hi. apply in_app_iff in Hi as [Hi|Hi].
            * exists k. split; [now left|now apply Z2].
            * destruct (Y2 i Hi) as (k' & H1 & H2). exists k'. split; [now right|exact H2].
          + intros i k' Hk' Hi Hn. rewrite in_app_iff in Hn. cbn [map fst] in Hk'. destruct Hk' as [<-|Hk'].
            * rewrite (SM i Hi). apply Z3; tauto.
            * eapply Y3; eauto.
          + intros i Hi. apply in_app_iff in Hi as [Hi|Hi]; [|now apply Y4].
            unfold torn. rewrite (SM i (Z2 i Hi)). now apply Z4. }
      destruct (Y cur (fun y Hy => Hy)) as (cut & Y1 & Y2 & Y3 & Y4). exists cut. split; [lia|]. split; [|split; [|exact Y4]].
      * intros i Hi. destruct (Y2 i Hi) as (k & _ & H). eapply (batch_unit C); eauto.
      * intros i Hi Hn. assert (HB : In i (concat bss)) by (rewrite C; apply in_seq; lia).
        apply in_concat in HB as (bs & Hb & Hib). apply (In_nth _ _ []) in Hb as (k & Lk & <-).
        destruct (in_dec Nat.eq_dec k (map (fun x => fst (fst x)) cur)) as [Hc|Hc]; [eapply Y3; eauto|].
        destruct (batch_effect uok C HI Lk) as [E1 _].
        assert (HS : In i (started res (nth k bss []))).
        { rewrite started_all; [exact Hib| |].
          - assert (FE : forall l', (forall i, In i l' -> (i < cnt)%nat) -> first_error (map res l') = None).
            { induction l' as [|j l' IH]; intros Hl; [reflexivity|]. cbn. rewrite all_ok by (apply Hl; now left). apply IH. intros j' Hj'. apply Hl. now right. }
            apply FE. intros j Hj. eapply (batch_unit C); eauto.
          - intros j Hj. rewrite all_ok; [discriminate|]. eapply (batch_unit C); eauto. }
        assert (HF : batch_F (fun i => one_key (key i)) (nth k bss []) (inl (key i))) by (exists i; split; [exact Hib|reflexivity]).
        destruct (X5 k Lk Hc) as [A|A]; specialize (A _ HF); cbn in A; [left; congruence|right].
        injection A as A. rewrite A. pose proof (E1 i HS (inl (key i)) eq_refl) as E. cbn in E. congruence.
Qed.
End Units.

(** A loop in which no unit fails. *)
Lemma seq_units (f : nat -> nat -> list cell -> code) (junk I : list cell -> Prop) cnt F R m0 fin res b0 :
  tasks_ok pget cnt (fun i tid => f tid i) I F R m0 fin res -> (forall b, junk b -> I b) -> I b0 ->
  ended (snd (run (foreach_sequential f (seq 0 cnt) b0) m0)) = Ok tt ->
  (forall i, (i < cnt)%nat -> res i = Ok tt) /\
  (forall i, (i < cnt)%nat -> agree pget (F i) (fst (run (foreach_sequential f (seq 0 cnt) b0) m0)) (fin i)).
Proof.
  intros U J Hb HO. destruct (run (foreach_sequential f (seq 0 cnt) b0) m0) as [ms os] eqn:E. cbn [fst snd] in *.
  assert (S : foreach_run 1 0 cnt f junk b0 m0 ms (ended os)) by (eapply run_sequential; [lia|exact E]).
  destruct (foreach_run_result U J Hb S) as (R2 & _ & _).
  assert (RO : forall i, (i < cnt)%nat -> res i = Ok tt).
  { intros i Hi. pose proof (res_not_UB U (ex_intro _ _ Hb) Hi) as NU.
    assert (FE : first_error (map res (seq 0 cnt)) = None).
    { destruct (first_error _); [|reflexivity]. rewrite HO in R2. discriminate. }
    destruct (res i) as [[]|e|] eqn:Er; [reflexivity| |congruence]. exfalso.
    eapply (first_error_none FE); [|exact Er]. apply in_map, in_seq. lia. }
  split; [exact RO|]. now destruct (foreach_run_ok U J Hb S RO) as (_ & A2 & U2).
Qed.

(** ** Plain datasets *)
Section Plain.
Local Open Scope N_scope.
Variable d : dataset.
Hypothesis ok : dataset_ok d.
Notation w := (t_width (d_type d)).
Notation s := (d_shape d).
Notation b := (d_chunks d).
Notation valid := (valid_chunk (d_shape d) (d_chunks d)).
Notation key := (chunk_key (d_key d)).

Theorem stopped_files threads est src off n st st' : region_ok d off n -> source_ok w n src ->
  (forall c, overlaps s b off n c -> steady d (plain_existing d st c) c) ->
  snd (write_request d src off n st) = Ok tt ->
  write_stopped d threads est src off n st st' ->
  exists cs, StronglySorted lex_lt cs /\ (forall c, In c cs <-> overlaps s b off n c) /\
    interrupted_on (N.to_nat (N.max 1 threads)) (map key cs) st (fst (write_request d src off n st)) st'.
Proof.
  intros Hr Hsrc Hold HW HC. destruct (begin_request_sorted ok Hr) as (l & E & ND & _ & HI & SO).
  inversion HC as [reqs m' E' C]; subst. rewrite E in E'. injection E' as <-. exists l. split; [exact SO|]. split; [exact HI|].
  pose proof (@write_units_ok d ok src off n st (fun _ => []) l Hr Hsrc Hold (fun c => proj1 (HI c)) ND) as U.
  assert (V : forall c, In c l -> valid c) by (intros c Hc; eapply overlaps_valid, HI, Hc).
  pose proof (@run_units _ _ _ (write_unit_code d src off n) l [] l 0%nat
    (repeat (d_fill d) (N.to_nat (prodw b))) (st, fun _ => []) Logic.eq_refl) as RU.
  destruct (@run_write_fold d ok src off n l V (repeat (d_fill d) (N.to_nat (prodw b)))
     st st (fun _ => []) (fun _ => Logic.eq_refl)) as (st2 & E2 & H2).
  pose proof (seq_units U (@left_over_buffer d) (fill_buffer ok)) as SU. unfold foreach_sequential in SU.
  rewrite RU, E2 in SU. cbn [fst snd] in SU.
  unfold write_request, write_plain, sbind, pure in *. rewrite E in *.
  destruct (foldS (write_unit d src off n) l (repeat (d_fill d) (N.to_nat (prodw b))) st) as [st3 [y|e|]]; cbn [fst snd ended] in *; try discriminate.
  destruct (SU Logic.eq_refl) as [RO FI].
  destruct (loop_stopped (key := fun i => key (nth i l [])) U (@left_over_buffer d)
    (fun i buf Hi => one_write_unit ok src off n buf (V _ (nth_In l [] Hi))) RO (fill_buffer ok) C) as (FR & cut & C1 & C2 & C3 & C4).
  cbn [fst] in *.
  assert (NEW : forall i, (i < length l)%nat -> fst (fst (run (write_unit_code d src off n (nth i l []) (repeat (d_fill d) (N.to_nat (prodw b)))) (st, fun _ : N => []))) (key (nth i l [])) = st3 (key (nth i l []))).
  { intros i Hi. pose proof (FI i Hi (inl (key (nth i l []))) Logic.eq_refl) as X. cbn [pget fst] in X. injection X as X. now rewrite <- X. }
  exists (map (fun i => key (nth i l [])) cut). split; [now rewrite map_length|]. split.
  { intros k Hk. apply in_map_iff in Hk as (i & <- & Hi). apply in_map, nth_In, C2, Hi. }
  split; [|split].
  - intros k Hk Hn. apply in_map_iff in Hk as (c & <- & Hc). apply (In_nth _ _ []) in Hc as (i & Hi & <-).
    destruct (C3 i Hi) as [X|X]; [intros Hin; apply Hn; now apply (in_map (fun i => key (nth i l [])))|now left|right].
    rewrite X. now apply NEW.
  - intros k Hk. apply in_map_iff in Hk as (i & <- & Hi). destruct (C4 i Hi) as [X|[X|(file & j & X1 & X2)]]; [now left|right; left|right; right].
    + rewrite X. apply NEW; auto.
    + exists file, j. split; [|exact X2]. rewrite <- X1. symmetry. apply NEW; auto.
  - intros k Hk. apply FR. intros i Hi ->. apply Hk. now apply in_map, nth_In.
Qed.

(** Which chunks are new. *)
Lemma stopped_chunks t cs old new found : interrupted_on t (map key cs) old new found ->
  exists (fresh : shape -> bool) (cut : list shape), (length cut <= t)%nat /\
    (forall c, In c cut -> In c cs) /\ (forall c, fresh c = true -> In c cs) /\
    (forall c, ~ In c cut -> found (key c) = if fresh c then new (key c) else old (key c)).
Proof.
  intros (cut & L & IN & I1 & I2 & I3).
  assert (D : forall c l, {In (key c) l} + {~ In (key c) l}) by (intros; apply in_dec, string_dec).
  assert (OD : forall x y : option bytes, {x = y} + {x <> y}) by (decide equality; apply (list_eq_dec N.eq_dec)).
  exists (fun c => if D c (map key cs) then if OD (found (key c)) (new (key c)) then true else false else false).
  assert (exists cc, length cc = length cut /\ map key cc = cut /\ forall c, In c cc -> In c cs) as (cc & L1 & E1 & Hcc).
  { clear - IN. induction cut as [|k cut IH]; [exists []; cbn; tauto|].
    destruct IH as (cc & L1 & E1 & H); [intros x Hx; apply IN; now right|].
    assert (In k (map key cs)) as Hk by (apply IN; now left). apply in_map_iff in Hk as (c & <- & Hc).
    exists (c :: cc). cbn. rewrite L1, E1. repeat split; auto. intros c' [<-|X]; auto. }
  exists cc. split; [lia|]. split; [exact Hcc|]. split.
  - intros c Hc. destruct (D c (map key cs)) as [X|X]; [|discriminate]. now apply (in_key ok) in X.
  - intros c Hc. destruct (D c (map key cs)) as [X|X]; [|now apply I3].
    destruct (OD (found (key c)) (new (key c))) as [Y|Y]; [exact Y|].
    destruct (I1 _ X) as [Z|Z]; [|exact Z|contradiction]. intros Hin. apply Hc. rewrite <- E1 in Hin. now apply (in_key ok) in Hin.
Qed.

Theorem stopped_array threads est ops src off n st st1 st2 : can_write (d_mode d) = true -> Forall (array_op_ok d) ops ->
  array_op_ok d (AWrite off n src) ->
  (forall c, valid c -> st (key c) = None) ->
  run_array_ops d ops st = (st1, Ok tt) -> write_stopped d threads est src off n st1 st2 ->
  exists (fresh : shape -> bool) (cut : list shape), (length cut <= N.to_nat (N.max 1 threads))%nat /\
    (forall c, In c cut -> overlaps s b off n c) /\ (forall c, fresh c = true -> overlaps s b off n c) /\
    forall ov off' out, region_ok d off' (v_shape ov) -> out_view_ok ov (lenN out) ->
      (forall c, In c cut -> ~ overlaps s b off' (v_shape ov) c) ->
      exists out', read_subarray d st2 ov off' out = Ok out' /\ lenN out' = lenN out /\
        forall i, in_shape (v_shape ov) i -> exists v,
          let expected := apply_ops d (ops ++ if fresh (chunk_of b (vadd off' i)) then [AWrite off n src] else [])
                            (fun _ => d_fill d) (vadd off' i) in
          getN out' (v_off ov + lin (v_strides ov) i) = Ok v /\ same_value d v expected /\
          (t_float (d_type d) = false -> v = expected).
Proof.
  intros Hm Hops Hop Hst Hrun HC. pose proof Hop as [Hreg Hsrc].
  destruct (run_array_ops_spec ok Hm Hops (holds_empty Hst) (@represents_empty d)) as (st1' & C & E & HO & HR & _).
  rewrite Hrun in E. injection E as <-.
  destruct (run_array_op_spec ok (o := AWrite off n src) Hm Hop HO HR) as (st3 & C' & E & HO' & HR' & _). cbn [run_array_op] in E.
  destruct (@stopped_files threads est src off n st1 st2 Hreg Hsrc) as (cs & SO & HI & I); [|now rewrite E|exact HC|].
  { intros c Hc. eapply holds_steady; eauto using overlaps_valid. }
  rewrite E in I. cbn [fst] in I.
  destruct (stopped_chunks I) as (fresh & cut & K0 & K1 & K2 & K3).
  exists fresh, cut. split; [exact K0|]. split; [intros c Hc; apply HI; auto|]. split; [intros c Hc; apply HI; auto|].
  intros ov off' out Hreg' Hov Hcut.
  set (C2 := fun c => if fresh c then C' c else C c).
  set (st4 := fun k => if in_dec string_dec k (map key cut) then (match find (fun c => String.eqb k (key c)) cut with
     Some c => if fresh c then st3 k else st1 k | None => st2 k end) else st2 k).
  assert (H4 : forall c, st4 (key c) = if fresh c then st3 (key c) else st1 (key c)).
  { intros c. unfold st4. destruct (in_dec string_dec (key c) (map key cut)) as [Hin|Hn].
    - destruct (find (fun c0 => String.eqb (key c) (key c0)) cut) as [c0|] eqn:EF.
      + apply find_some in EF as [_ EF]. apply String.eqb_eq in EF. apply (key_inj ok) in EF. now subst.
      + exfalso. apply in_map_iff in Hin as (c0 & E0 & H0). apply (find_none _ _ EF) in H0. rewrite E0, String.eqb_refl in H0. discriminate.
    - apply K3. intros Hin. apply Hn. now apply in_map. }
  assert (HO4 : holds d st4 C2).
  { intros c Hc. specialize (HO c Hc). specialize (HO' c Hc). unfold C2, chunk_holds in *. rewrite H4. destruct (fresh c); assumption. }
  destruct (read_subarray_spec ok Hreg' HO4 Hov) as (out' & E2 & L & A & _).
  exists out'. split; [|split; [exact L|]].
  { rewrite <- E2. apply (read_ext ok); [exact Hreg'|]. intros c Ho. rewrite H4. apply K3. intros Hc. now apply (Hcut c Hc). }
  intros i Hi. exists (val d C2 (vadd off' i)). cbv zeta. split; [now apply A|].
  assert (Hx : in_shape s (vadd off' i)).
  { eapply region_in_shape; [apply Hreg'|]. apply sub_in_box; [|exact Hi].
    destruct Hreg' as [Hr _]. unfold valid_region in Hr; apply all3_length in Hr; lia. }
  assert (OK2 : forall b0 : bool, Forall (array_op_ok d) (ops ++ if b0 then [AWrite off n src] else [])).
  { intros b0. apply Forall_app. split; [exact Hops|]. destruct b0; [apply Forall_cons; [exact Hop|constructor]|constructor]. }
  assert (SV : same_value d (val d C2 (vadd off' i))
    (apply_ops d (ops ++ if fresh (chunk_of b (vadd off' i)) then [AWrite off n src] else []) (fun _ => d_fill d) (vadd off' i))).
  { specialize (HR _ Hx). specialize (HR' _ Hx). unfold val, C2 in *. destruct (fresh (chunk_of b (vadd off' i))); [|now rewrite app_nil_r].
    assert (X : forall l a x, apply_ops d (l ++ [AWrite off n src]) a x = apply_op d (AWrite off n src) (apply_ops d l a) x).
    { clear. induction l as [|o l IH]; intros a x; [reflexivity|]. cbn [app apply_ops]. apply IH. }
    rewrite X. exact HR'. }
  split; [exact SV|]. intros Hf. apply (same_value_int ok); auto.
  - eapply (val_cell ok); eauto.
  - apply (apply_ops_cells ok); auto. intros; apply (do_fill ok).
  - eapply (val_cell ok); eauto.
  - apply (apply_ops_cells ok); auto. intros; apply (do_fill ok).
Qed.
End Plain.

(** ** Sharded datasets *)
Section Sharded.
Local Open Scope N_scope.
Variable sd : sharded.
Hypothesis sok : sharded_ok sd.
Notation d := (sd_base sd).
Notation w := (t_width (d_type (sd_base sd))).
Notation s := (d_shape (sd_base sd)).
Notation b := (d_chunks (sd_base sd)).
Notation cps := (sd_cps sd).
Notation ok := (so_base sok).
Notation valid := (valid_chunk (d_shape (sd_base sd)) (d_chunks (sd_base sd))).
Notation key := (chunk_key (d_key (sd_base sd))).

Theorem stopped_shards threads est src off n st st' : region_ok d off n -> source_ok w n src ->
  (forall c, overlaps s b off n c -> slot_steady sd st c) ->
  snd (sh_write_request sd src off n st) = Ok tt ->
  sh_write_stopped sd threads est src off n st st' ->
  exists ks, NoDup ks /\ (forall k, In k ks <-> exists c, overlaps s b off n c /\ shard_of cps c = k) /\
    interrupted_on (N.to_nat (N.max 1 threads)) (map key ks) st (fst (sh_write_request sd src off n st)) st'.
Proof.
  intros Hr Hsrc Hold HW HC. destruct (request_groups sok Hr) as (reqs & gs & E1 & E2 & E3 & HG & ND1 & HM & ND).
  inversion HC as [gs' m' E' C]; subst. rewrite E1 in E'. cbn [bind] in E'.
  destruct (can_write (d_mode d)) eqn:Hw; cbn [negb] in E'; [|discriminate]. rewrite E2 in E'. cbn [bind] in E'. rewrite E3 in E'. injection E' as <-.
  exists (map fst gs). split; [exact ND|]. split.
  { intros k. split.
    - intros Hk. apply in_map_iff in Hk as ([k' cs] & <- & Hg). destruct (HG _ _ Hg) as [NE HO]. destruct cs as [|c cs]; [congruence|].
      exists c. apply HO. now left.
    - intros (c & Ho & <-). apply HM in Ho. apply in_concat in Ho as (cs & Hcs & Hc). apply in_map_iff in Hcs as ([k cs'] & <- & Hg).
      destruct (HG _ _ Hg) as [_ HO]. destruct (HO c Hc) as [_ ->]. apply in_map_iff. exists (k, cs'). auto. }
  assert (GF : forall g, In g gs -> length (fst g) = length b /\ NoDup (snd g) /\
    forall c, In c (snd g) -> overlaps s b off n c /\ shard_of cps c = fst g).
  { intros [k cs] Hg. destruct (HG k cs Hg) as [NE HO]. cbn [fst snd]. split; [|split; [|exact HO]].
    - destruct cs as [|c cs]; [congruence|]. destruct (HO c (or_introl eq_refl)) as [Ho <-].
      apply (shard_of_len sok), valid_len. eapply overlaps_valid; eauto.
    - eapply NoDup_concat_in; [exact ND1|]. apply in_map_iff. exists (k, cs). auto. }
  pose proof (@shard_writes_ok sd sok src off n st (fun _ => []) gs Hr Hsrc Hw Hold GF ND) as U.
  pose proof (@run_units _ _ _ (shard_write_unit_code sd src off n) gs ([], []) gs 0%nat
    (repeat (d_fill d) (N.to_nat (prodw b))) (st, fun _ => []) Logic.eq_refl) as RU.
  destruct (@run_shard_write_fold sd sok src off n gs Hw (fun g Hg => proj1 (GF g Hg)) (repeat (d_fill d) (N.to_nat (prodw b)))
     st st (fun _ => []) (fun _ => Logic.eq_refl)) as (st2 & EF & H2).
  pose proof (seq_units U (@left_over_buffer d) (fill_buffer ok)) as SU. unfold foreach_sequential in SU.
  rewrite RU, EF in SU. cbn [fst snd] in SU.
  unfold sh_write_request, write_sharded, sbind, pure in *. rewrite E1, Hw in *. cbn [negb] in *. rewrite E2, E3 in *.
  destruct (foldS (shard_write_unit sd src off n) gs (repeat (d_fill d) (N.to_nat (prodw b))) st) as [st3 [y|e|]]; cbn [fst snd ended] in *; try discriminate.
  destruct (SU Logic.eq_refl) as [RO FI].
  destruct (loop_stopped (key := fun i => key (fst (nth i gs ([], [])))) U (@left_over_buffer d)
    (fun i buf Hi => @one_write_shard sd sok src off n (nth i gs ([], [])) buf (proj1 (GF _ (nth_In gs ([], []) Hi)))) RO (fill_buffer ok) C) as (FR & cut & C1 & C2 & C3 & C4).
  cbn [fst] in *.
  assert (NEW : forall i, (i < length gs)%nat -> fst (fst (run (shard_write_unit_code sd src off n (nth i gs ([], [])) (repeat (d_fill d) (N.to_nat (prodw b)))) (st, fun _ : N => []))) (key (fst (nth i gs ([], [])))) = st3 (key (fst (nth i gs ([], []))))).
  { intros i Hi. pose proof (FI i Hi (inl (key (fst (nth i gs ([], []))))) Logic.eq_refl) as X. cbn [pget fst] in X. injection X as X. now rewrite <- X. }
  assert (NG : forall k, In k (map key (map fst gs)) <-> exists i, (i < length gs)%nat /\ k = key (fst (nth i gs ([], [])))).
  { intros k. rewrite map_map, in_map_iff. split.
    - intros (g & <- & Hg). apply (In_nth _ _ ([], [])) in Hg as (i & Hi & <-). eauto.
    - intros (i & Hi & ->). eexists. split; [reflexivity|]. now apply nth_In. }
  exists (map (fun i => key (fst (nth i gs ([], [])))) cut). split; [now rewrite map_length|]. split.
  { intros k Hk. apply in_map_iff in Hk as (i & <- & Hi). apply NG. exists i. split; auto. }
  split; [|split].
  - intros k Hk Hn. apply NG in Hk as (i & Hi & ->).
    destruct (C3 i Hi) as [X|X]; [intros Hin; apply Hn; now apply (in_map (fun i => key (fst (nth i gs ([], [])))))|now left|right].
    rewrite X. now apply NEW.
  - intros k Hk. apply in_map_iff in Hk as (i & <- & Hi). destruct (C4 i Hi) as [X|[X|(file & j & X1 & X2)]]; [now left|right; left|right; right].
    + rewrite X. apply NEW; auto.
    + exists file, j. split; [|exact X2]. rewrite <- X1. symmetry. apply NEW; auto.
  - intros k Hk. apply FR. intros i Hi ->. apply Hk. apply NG. eauto.
Qed.

Theorem stopped_sharded_array threads est ops src off n st st1 st2 : can_write (d_mode d) = true -> Forall (array_op_ok d) ops ->
  array_op_ok d (AWrite off n src) ->
  (forall c, valid c -> st (shard_key sd c) = None) ->
  run_sharded_ops sd ops st = (st1, Ok tt) -> sh_write_stopped sd threads est src off n st1 st2 ->
  exists (fresh : shape -> bool) (cut : list shape), (length cut <= N.to_nat (N.max 1 threads))%nat /\
    (forall k, In k cut -> exists c, overlaps s b off n c /\ shard_of cps c = k) /\
    (forall k, fresh k = true -> exists c, overlaps s b off n c /\ shard_of cps c = k) /\
    forall ov off' out, region_ok d off' (v_shape ov) -> out_view_ok ov (lenN out) ->
      (forall c, overlaps s b off' (v_shape ov) c -> ~ In (shard_of cps c) cut) ->
      exists out', sh_read_subarray sd st2 ov off' out = Ok out' /\ lenN out' = lenN out /\
        forall i, in_shape (v_shape ov) i -> exists v,
          let expected := apply_ops d (ops ++ if fresh (shard_of cps (chunk_of b (vadd off' i))) then [AWrite off n src] else [])
                            (fun _ => d_fill d) (vadd off' i) in
          getN out' (v_off ov + lin (v_strides ov) i) = Ok v /\ same_value d v expected /\
          (t_float (d_type d) = false -> v = expected).
Proof.
  intros Hm Hops Hop Hst Hrun HC. pose proof Hop as [Hreg Hsrc]. destruct (so_blob sok) as (m & M1 & M2).
  destruct (@run_sharded_ops_spec sd sok m M1 M2 (own_blob sd) (@own_blob_ok sd) own_shard (@own_shard_ok sd) (fun _ => True) ops (fun _ => Logic.I) Hm Hops st _ _ (@holds_sh_empty sd sok m M1 M2 (own_blob sd) (@own_blob_ok sd) own_shard (@own_shard_ok sd) (fun _ => True) st Hst) (@represents_empty d))
    as (st1' & C & E & HO & HR & _).
  rewrite Hrun in E. injection E as <-.
  destruct (@run_sharded_op_spec sd sok m M1 M2 (own_blob sd) (@own_blob_ok sd) own_shard (@own_shard_ok sd) (fun _ => True) (AWrite off n src) st1 C _ (fun _ => Logic.I) Hm Hop HO HR) as (st3 & C' & E & HO' & HR' & _).
  cbn [run_sharded_op] in E.
  destruct (@stopped_shards threads est src off n st1 st2 Hreg Hsrc) as (ks & ND & HI & I); [|now rewrite E|exact HC|].
  { intros c Hc. exact (holds_slot_steady sok M1 M2 HO (overlaps_valid Hc)). }
  rewrite E in I. cbn [fst] in I.
  destruct (stopped_chunks ok I) as (fresh & cut & K0 & K1 & K2 & K3).
  exists fresh, cut. split; [exact K0|]. split; [intros c Hc; apply HI; auto|]. split; [intros c Hc; apply HI; auto|].
  intros ov off' out Hreg' Hov Hcut.
  set (C2 := fun c => if fresh (shard_of cps c) then C' c else C c).
  set (G := fun k : shape => ~ In k cut).
  assert (HO4 : holds_sh sd m (own_blob sd) own_shard G st2 C2).
  { intros c Hc HG. destruct (HO c Hc Logic.I) as (b1 & (S1 & S2 & S3) & R1). destruct (HO' c Hc Logic.I) as (b2 & (T1 & T2 & T3) & R2).
    specialize (K3 _ HG). destruct (fresh (shard_of cps c)) eqn:EF.
    - exists b2. split; [split; [exact T1|]; split; [exact T2|]; rewrite K3; exact T3|].
      eapply shard_rel_ext; [|exact R2]. intros c' _ Hs. unfold C2. now rewrite Hs, EF.
    - exists b1. split; [split; [exact S1|]; split; [exact S2|]; rewrite K3; exact S3|].
      eapply shard_rel_ext; [|exact R1]. intros c' _ Hs. unfold C2. now rewrite Hs, EF. }
  destruct (@sh_read_subarray_spec sd sok m M1 M2 (own_blob sd) (@own_blob_ok sd) own_shard (@own_shard_ok sd) G ov off' st2 C2 out Hreg' Hcut HO4 Hov)
    as (out' & E2 & L & A & _).
  exists out'. split; [exact E2|]. split; [exact L|].
  intros i Hi. exists (val d C2 (vadd off' i)). cbv zeta. split; [now apply A|].
  assert (LEN : length off' = length (v_shape ov)).
  { destruct Hreg' as [Hr _]. unfold valid_region in Hr; apply all3_length in Hr; lia. }
  assert (Hb : in_box off' (v_shape ov) (vadd off' i)) by (apply sub_in_box; auto).
  assert (Hx : in_shape s (vadd off' i)) by (eapply region_in_shape; [apply Hreg'|exact Hb]).
  assert (HGx : G (shard_of cps (chunk_of b (vadd off' i)))).
  { apply Hcut. exists (vadd off' i). split; [exact Hb|]. now apply (elem_chunk ok). }
  assert (OK2 : forall b0 : bool, Forall (array_op_ok d) (ops ++ if b0 then [AWrite off n src] else [])).
  { intros b0. apply Forall_app. split; [exact Hops|]. destruct b0; [apply Forall_cons; [exact Hop|constructor]|constructor]. }
  assert (SV : same_value d (val d C2 (vadd off' i))
    (apply_ops d (ops ++ if fresh (shard_of cps (chunk_of b (vadd off' i))) then [AWrite off n src] else []) (fun _ => d_fill d) (vadd off' i))).
  { specialize (HR _ Hx). specialize (HR' _ Hx). unfold val, C2 in *. destruct (fresh (shard_of cps (chunk_of b (vadd off' i)))); [|now rewrite app_nil_r].
    assert (X : forall l a x, apply_ops d (l ++ [AWrite off n src]) a x = apply_op d (AWrite off n src) (apply_ops d l a) x).
    { clear. induction l as [|o l IH]; intros a x; [reflexivity|]. cbn [app apply_ops]. apply IH. }
    rewrite X. exact HR'. }
  split; [exact SV|]. intros Hf.
  destruct (@val_cell_sh sd sok m (own_blob sd) own_shard G st2 C2 _ HGx HO4 Hx) as [V1 V2].
  destruct (@apply_ops_cells d ok _ (OK2 (fresh (shard_of cps (chunk_of b (vadd off' i))))) (fun _ => d_fill d) (fun _ _ => do_fill ok) _ Hx) as [A1 A2].
  eapply (same_value_int ok); eauto.
Qed.
End Sharded.

(** ** Schedules for examples *)
Section Schedule.
Variables (task : nat -> nat -> list cell -> code) (junk : list cell -> Prop) (m : nat).
Notation pool := (pool pmem (list cell)).

(** The next step of the caller while it hands out tasks and no worker sleeps, and of
    a worker until its task ends. *)
Definition caller_move (s : pool * caller) : option (pool * caller) :=
  let (p, c) := s in
  match c with
  | CEnqueue k => if Nat.ltb k m then option_map (fun p' => (p', CNotify (S k))) (push p) else None
  | CNotify k => if forallb (fun w => match w with WSleep _ => false | _ => true end) (p_workers p) then Some (p, CEnqueue k) else None
  | _ => None
  end.
Definition worker_move (tid : nat) (s : pool * caller) : option (pool * caller) :=
  let (p, c) := s in
  match nth_error (p_workers p) tid with
  | Some (WIdle b) =>
      match p_stop p, p_queue p with
      | false, k :: q => Some (Pool (p_mem p) q false (S (p_busy p)) (p_processed p)
          (set_worker p tid (WRun k (task k tid b))) (p_futures p) (p_log p ++ [(k, tid)]), c)
      | _, _ => None
      end
  | Some (WRun k (Act f)) => Some (Pool (fst (f (p_mem p))) (p_queue p) (p_stop p) (p_busy p) (p_processed p)
          (set_worker p tid (WRun k (snd (f (p_mem p))))) (p_futures p) (p_log p), c)
  | _ => None
  end.
Fixpoint moves (l : list (option nat)) (s : pool * caller) : option (pool * caller) :=
  match l with
  | [] => Some s
  | x :: r => match (match x with None => caller_move s | Some tid => worker_move tid s end) with
              | Some s' => moves r s'
              | None => None
              end
  end.
Lemma reach_first (s s' s'' : pool * caller) : foreach_step task junk m s s' -> reach (foreach_step task junk m) s' s'' ->
  reach (foreach_step task junk m) s s''.
Proof. intros H R. induction R as [|x y R IH St]; [eapply reach_step; [constructor|exact H]|eapply reach_step; eauto]. Qed.
Lemma moves_reach l : forall s s', moves l s = Some s' -> reach (foreach_step task junk m) s s'.
Proof.
  induction l as [|x l IH]; intros s s' H; cbn [moves] in H; [injection H as <-; constructor|].
  destruct x as [tid|].
  - destruct (worker_move tid s) as [s1|] eqn:E; [|discriminate]. apply reach_first with s1; [|auto]. clear H IH.
    destruct s as [p c]. cbn [worker_move] in E. apply s_real.
    destruct (nth_error (p_workers p) tid) as [[b|b|k [o|f]|b|]|] eqn:Ew; try discriminate.
    + destruct (p_stop p) eqn:Es; [discriminate|]. destruct (p_queue p) as [|k q] eqn:Eq; [discriminate|]. injection E as <-.
      apply s_worker with tid. now apply (@step_take _ _ task junk p tid b k q).
    + injection E as <-. apply s_worker with tid. now apply (@step_act _ _ task junk p tid k f).
  - destruct (caller_move s) as [s1|] eqn:E; [|discriminate]. apply reach_first with s1; [|auto]. clear H IH.
    destruct s as [p c]. cbn [caller_move] in E. apply s_real.
    destruct c as [k|k|k exc|exc|exc|exc|exc|]; try discriminate.
    + destruct (Nat.ltb_spec k m) as [L|L]; [|discriminate]. destruct (push p) as [p'|] eqn:Ep; [|discriminate]. injection E as <-. now apply s_caller, c_push.
    + destruct (forallb _ _) eqn:EF; [|discriminate]. injection E as <-. apply s_caller, c_notify. apply notify_none. intros tid b Hw.
      rewrite forallb_forall in EF. apply nth_error_In, EF in Hw. discriminate.
Qed.
End Schedule.

(** Some of the bytes of the files that the threads were writing. *)
Fixpoint tear (l : list (option (string * nat))) (ws : list (wstate pmem (list cell))) (m : pmem) : option pmem :=
  match l, ws with
  | [], [] => Some m
  | None :: l', _ :: ws' => tear l' ws' m
  | Some (key, i) :: l', WRun _ (Act f) :: ws' =>
      match fst m key, fst (fst (f m)) key with
      | Some [], Some b => tear l' ws' (set_key (fst m) key (Some (firstn i b)), snd m)
      | _, _ => None
      end
  | _, _ => None
  end.
Lemma tear_torn l : forall ws m m', tear l ws m = Some m' -> torn_threads ws m m'.
Proof.
  induction l as [|x l IH]; intros [|wk ws] m m' H; cbn [tear] in H.
  - injection H as <-. constructor.
  - discriminate.
  - destruct x as [[]|]; discriminate.
  - destruct x as [[key i]|]; [|now apply torn_whole, IH].
    destruct wk as [b|b|k [o|f]|b|]; try discriminate.
    destruct (fst m key) as [[|]|] eqn:E1; try discriminate. destruct (fst (fst (f m)) key) as [x|] eqn:E2; [|discriminate].
    apply (@torn_inside k f ws m m' key [] x i); auto.
Qed.

(** The write of a region with the chunks [reqs] follows a schedule and is then stopped. *)
Definition scheduled (d : dataset) (threads : N) (estimate : Z) (src : source) (off n : shape) (st : store)
    (reqs : list shape) (sched : list (option nat)) (cuts : list (option (string * nat))) : option pmem :=
  match moves (fun k tid => batch_prog (fun _ i => write_unit_code d src off n (nth i reqs [])) tid
                 (nth k (batches (List.length reqs) (chunked_work estimate) (seq 0 (List.length reqs))) []))
          (List.length (batches (List.length reqs) (chunked_work estimate) (seq 0 (List.length reqs)))) sched
          (pool_init (st, fun _ => []) (repeat (repeat (d_fill d) (N.to_nat (prodw (d_chunks d)))) (N.to_nat threads)), CEnqueue 0) with
  | Some (p, _) => tear cuts (p_workers p) (p_mem p)
  | None => None
  end.
Lemma scheduled_stopped d threads est src off n st reqs sched cuts m' : 1 < threads -> begin_request d off n = Ok reqs ->
  scheduled d threads est src off n st reqs sched cuts = Some m' -> write_stopped d threads est src off n st (fst m').
Proof.
  intros Ht Hr E. unfold scheduled in E. destruct (moves _ _ _ _) as [[p c]|] eqn:EM; [|discriminate].
  apply write_stopped_reqs with (reqs := reqs); [exact Hr|]. apply crash_parallel with (p := p) (c := c); [exact Ht| |exact (tear_torn E)].
  exact (@moves_reach _ _ _ sched _ _ EM).
Qed.

(** The same for a sharded dataset. *)
Definition sh_scheduled (sd : sharded) (threads : N) (estimate : Z) (src : source) (off n : shape) (st : store)
    (groups : list (shape * list shape)) (sched : list (option nat)) (cuts : list (option (string * nat))) : option pmem :=
  match moves (fun k tid => batch_prog (fun _ i => shard_write_unit_code sd src off n (nth i groups ([], []))) tid
                 (nth k (batches (List.length groups) (chunked_work estimate) (seq 0 (List.length groups))) []))
          (List.length (batches (List.length groups) (chunked_work estimate) (seq 0 (List.length groups)))) sched
          (pool_init (st, fun _ => []) (repeat (repeat (d_fill (sd_base sd)) (N.to_nat (prodw (d_chunks (sd_base sd))))) (N.to_nat threads)), CEnqueue 0) with
  | Some (p, _) => tear cuts (p_workers p) (p_mem p)
  | None => None
  end.
Lemma sh_scheduled_stopped sd threads est src off n st groups sched cuts m' : 1 < threads ->
  (let! reqs := begin_request (sd_base sd) off n in
   if negb (can_write (d_mode (sd_base sd))) then Throw EInvalidArgument else
   let! cps := chunks_per_shard (sd_shard sd) (d_chunks (sd_base sd)) in
   group_chunks cps reqs) = Ok groups ->
  sh_scheduled sd threads est src off n st groups sched cuts = Some m' -> sh_write_stopped sd threads est src off n st (fst m').
Proof.
  intros Ht Hr E. unfold sh_scheduled in E. destruct (moves _ _ _ _) as [[p c]|] eqn:EM; [|discriminate].
  apply sh_write_stopped_groups with (groups := groups); [exact Hr|]. apply crash_parallel with (p := p) (c := c); [exact Ht| |exact (tear_torn E)].
  exact (@moves_reach _ _ _ sched _ _ EM).
Qed.
