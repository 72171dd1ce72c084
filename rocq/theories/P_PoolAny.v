(** parallel_foreach with arbitrary tasks (also tasks that race). *)
From Verif Require Import M_Base M_Pool S_Pool P_Base P_Pool.
Import List ListNotations.
Local Open Scope nat_scope.

Section Any.
Variables (M B : Type) (task : nat -> nat -> B -> prog M B) (junk : B -> Prop) (m n : nat).
Notation pool := (pool M B).

Definition done (p : pool) (k : nat) : Prop := forall j, j < k -> exists o, nth_error (p_futures p) j = Some (Some o).
Definition any_ok (p : pool) (c : caller) : Prop :=
  match c with
  | CEnqueue k | CNotify k => k <= m /\ length (p_futures p) = k /\ p_stop p = false
  | CWait k exc => k <= m /\ length (p_futures p) = m /\ p_stop p = false /\ done p k /\
      exc = first_error (map (future_of p) (seq 0 k))
  | CStop exc => length (p_futures p) = m /\ p_stop p = false /\ done p m /\ exc = first_error (map (future_of p) (seq 0 m))
  | CNotifyAll exc | CJoin exc => length (p_futures p) = m /\ p_stop p = true /\ done p m /\
      exc = first_error (map (future_of p) (seq 0 m))
  | CReturn exc => length (p_futures p) = m /\ p_stop p = true /\ done p m /\
      exc = first_error (map (future_of p) (seq 0 m)) /\ forall w, In w (p_workers p) -> w = WExit
  | CRejected => False
  end.

(** A future that is set keeps its value. *)
Lemma worker_keeps p tid p' j o : pool_ok n p -> worker_step task junk p tid p' ->
  nth_error (p_futures p) j = Some (Some o) -> nth_error (p_futures p') j = Some (Some o).
Proof.
  intros P [b k q Hw Hs Hq|b Hw Hs|b Hw Hs Hq|k f Hw|k b Hw|k e b Hw Hj|b Hw]; cbn; auto.
  - intros X. rewrite set_nth_other; [exact X|]. intros ->. destruct (po_running P Hw) as [_ Y]. congruence.
  - intros X. rewrite set_nth_other; [exact X|]. intros ->. destruct (po_running P Hw) as [_ Y]. congruence.
Qed.

Lemma keeps_futures p p' k : done p k ->
  (forall j o, nth_error (p_futures p) j = Some (Some o) -> nth_error (p_futures p') j = Some (Some o)) ->
  done p' k /\ map (future_of p') (seq 0 k) = map (future_of p) (seq 0 k).
Proof.
  intros D K. split.
  - intros j Hj. destruct (D j Hj) as [o X]. eauto.
  - apply map_ext_in. intros j Hj. apply in_seq in Hj. destruct (D j) as [o X]; [lia|].
    unfold future_of. now rewrite X, (K _ _ X).
Qed.

Lemma any_worker_ok p tid p' c : pool_ok n p -> any_ok p c -> worker_step task junk p tid p' -> any_ok p' c.
Proof.
  intros P H S. destruct (worker_futures S) as (E1 & E2 & _). pose proof (fun j o => worker_keeps (j := j) (o := o) P S) as K.
  destruct c; cbn in *; rewrite ?E1, ?E2; auto; repeat match goal with X : _ /\ _ |- _ => destruct X end;
    match goal with X : done _ _ |- _ => destruct (keeps_futures X K) as [D ->] end; repeat split; auto.
  intros w Hw. destruct S as [b k q Sw Hs Hq|b Sw Hs|b Sw Hs Hq|k f Sw|k b Sw|k e b Sw Hj|b Sw];
    apply nth_error_In in Sw; match goal with X : forall w, In w _ -> _ |- _ => apply X in Sw; discriminate end.
Qed.

Lemma any_caller_ok p c p' c' : pool_ok n p -> any_ok p c -> caller_step m p c p' c' -> pool_ok n p' /\ any_ok p' c'.
Proof.
  intros P Hc St. destruct St as [k p' Hk Hp|k Hk Hp|k p' Hn|k Hk|k exc o Hk Ho|k exc Hk|exc|exc|exc Hx].
  - split; [exact (pool_ok_push P Hp)|]. unfold push in Hp. destruct Hc as (C1 & C2 & C3). rewrite C3 in Hp. injection Hp as <-.
    cbn. rewrite app_length. cbn. lia.
  - exfalso. unfold push in Hp. destruct Hc as (_ & _ & C3). rewrite C3 in Hp. discriminate.
  - split; [exact (pool_ok_notify P Hn)|]. destruct Hn; exact Hc.
  - split; [exact P|]. destruct Hc as (C1 & C2 & C3). cbn. assert (k = m) by lia. subst k. repeat split; auto; try lia.
    intros j Hj. lia.
  - split; [exact P|]. destruct Hc as (C1 & C2 & C3 & C4 & C5). cbn [any_ok]. repeat split; auto; try lia.
    + intros j Hj. destruct (Nat.eq_dec j k) as [->|]; [eauto|]. apply C4. lia.
    + rewrite first_error_snoc. unfold future_of at 2. rewrite Ho. now subst exc.
  - split; [exact P|]. destruct Hc as (C1 & C2 & C3 & C4 & C5). assert (k = m) by lia. subst k. cbn. auto.
  - split; [now apply pool_ok_stop|]. destruct Hc as (C1 & C2 & C3 & C4). cbn. auto.
  - split; [now apply pool_ok_notify_all|]. destruct Hc as (C1 & C2 & C3 & C4). cbn. auto.
  - split; [exact P|]. destruct Hc as (C1 & C2 & C3 & C4). cbn. auto.
Qed.

Lemma any_reach m0 bs s : length bs = n ->
  reach (foreach_step task junk m) (pool_init m0 bs, CEnqueue 0) s -> pool_ok n (fst s) /\ any_ok (fst s) (snd s).
Proof.
  intros Hn. induction 1 as [|s s' _ [P A] St].
  - cbn [fst snd]. split; [rewrite <- Hn; apply pool_ok_init|]. cbn. lia.
  - destruct St as [s s' St|p c tid b Sw]; [destruct St as [p c tid p' Sw|p c p' c' Sc]|]; cbn [fst snd] in *.
    + split; [eapply pool_ok_worker; eauto|eapply any_worker_ok; eauto].
    + eapply any_caller_ok; eauto.
    + split; [now apply pool_ok_wake|]. destruct c; auto. cbn in A. destruct A as (_ & _ & _ & _ & A).
      apply nth_error_In in Sw. apply A in Sw. discriminate.
Qed.

(** When parallel_foreach returns every task was executed once, its result is
    recorded and the first exception is rethrown. *)
Theorem foreach_any m0 bs p c : length bs = n ->
  reach (foreach_step task junk m) (pool_init m0 bs, CEnqueue 0) (p, c) ->
  c <> CRejected /\ forall exc, c = CReturn exc ->
    map fst (p_log p) = seq 0 m /\ (forall k tid, In (k, tid) (p_log p) -> tid < n) /\
    (forall k, k < m -> exists o, nth_error (p_futures p) k = Some (Some o)) /\
    exc = first_error (map (future_of p) (seq 0 m)).
Proof.
  intros Hn Hr. destruct (any_reach Hn Hr) as [P Hc]. cbn [fst snd] in *.
  split; [intros ->; exact Hc|]. intros exc ->. destruct Hc as (C1 & C2 & C3 & C4 & C5).
  split; [|split; [exact (po_log P)|split; [exact C3|exact C4]]].
  pose proof (po_queue P) as Q. rewrite C1 in Q. destruct (p_queue p) as [|k q] eqn:Eq; [now rewrite app_nil_r in Q|].
  exfalso. assert (Hk : In k (p_queue p)) by (rewrite Eq; now left).
  pose proof (po_queued P Hk) as X. destruct (C3 k) as [o Y]; [|congruence].
  pose proof (queue_lt P Hk). lia.
Qed.
End Any.

(** ** The pool with any client *)

Section Client.
Variables (M B : Type) (task : nat -> nat -> B -> prog M B) (junk : B -> Prop).
Notation pool := (pool M B).

Lemma count_filter A (g : A -> bool) l : count g l = length (filter g l).
Proof. induction l as [|x l IH]; cbn; [reflexivity|]. destruct (g x); cbn; lia. Qed.
Lemma count_mono A (g h : A -> bool) l : (forall x, g x = true -> h x = true) -> count g l <= count h l.
Proof.
  intros H. induction l as [|x l IH]; cbn; [lia|]. specialize (H x). destruct (g x), (h x); try lia.
Qed.

Lemma workers_bound m bs p : reach (pool_step task junk) (pool_init m bs) p ->
  length (p_workers p) = length bs /\
  (forall tid tid' k q q', nth_error (p_workers p) tid = Some (WRun k q) ->
     nth_error (p_workers p) tid' = Some (WRun k q') -> tid = tid') /\
  length (filter is_running (p_workers p)) <= p_busy p <= length bs.
Proof.
  intros Hr. pose proof (pool_ok_reach Hr) as P. split; [exact (po_workers P)|]. split; [exact (po_distinct P)|].
  rewrite (po_busy P), <- count_filter, <- (po_workers P). split; [|apply count_le].
  apply count_mono. intros [] E; try discriminate; reflexivity.
Qed.

Lemma stopped_step p p' : p_stop p = true -> pool_step task junk p p' ->
  p_stop p' = true /\ p_log p' = p_log p /\ length (p_futures p') = length (p_futures p).
Proof.
  intros Hs [tid p1 St|tid b Hw|p1 Hp|p1 Hn| |].
  - destruct (worker_futures St) as (E1 & E2 & _). rewrite E1, E2. split; [auto|]. split; [|auto].
    destruct St; try reflexivity. congruence.
  - auto.
  - unfold push in Hp. rewrite Hs in Hp. discriminate.
  - destruct Hn; auto.
  - auto.
  - auto.
Qed.

Lemma stop_final m bs p : reach (pool_step task junk) (pool_init m bs) p ->
  ((exists tid, nth_error (p_workers p) tid = Some WExit) -> p_stop p = true) /\
  (p_stop p = true -> push p = None /\
     forall p', reach (pool_step task junk) p p' ->
       p_stop p' = true /\ p_log p' = p_log p /\ length (p_futures p') = length (p_futures p)).
Proof.
  intros Hr. pose proof (pool_ok_reach Hr) as P. split.
  - intros [tid H]. exact (po_exit P H).
  - intros Hs. split; [unfold push; now rewrite Hs|]. induction 1 as [|p1 p2 _ (A1 & A2 & A3) St]; [auto|].
    destruct (stopped_step A1 St) as (B1 & B2 & B3). split; [auto|]. split; congruence.
Qed.

Lemma all_executed m bs p : reach (pool_step task junk) (pool_init m bs) p ->
  (forall k, k < length (p_futures p) ->
     (exists o, nth_error (p_futures p) k = Some (Some o)) \/ In k (p_queue p) \/
     exists tid q, nth_error (p_workers p) tid = Some (WRun k q)) /\
  ((forall k, k < length (p_futures p) -> exists o, nth_error (p_futures p) k = Some (Some o)) ->
     map fst (p_log p) = seq 0 (length (p_futures p))) /\
  (finished p = true ->
     map fst (p_log p) = seq 0 (length (p_futures p)) /\
     forall k, k < length (p_futures p) -> exists o, nth_error (p_futures p) k = Some (Some o)).
Proof.
  intros Hr. pose proof (pool_ok_reach Hr) as P.
  assert (H1 : forall k, k < length (p_futures p) ->
     (exists o, nth_error (p_futures p) k = Some (Some o)) \/ In k (p_queue p) \/
     exists tid q, nth_error (p_workers p) tid = Some (WRun k q)).
  { intros k Hk. destruct (nth_error (p_futures p) k) as [[o|]|] eqn:E; [left; eauto|right; exact (po_pending P E)|].
    apply nth_error_None in E. lia. }
  assert (H2 : (forall k, k < length (p_futures p) -> exists o, nth_error (p_futures p) k = Some (Some o)) ->
     map fst (p_log p) = seq 0 (length (p_futures p))).
  { intros D. pose proof (po_queue P) as Q. destruct (p_queue p) as [|k q] eqn:Eq; [now rewrite app_nil_r in Q|].
    assert (Hk : In k (p_queue p)) by (rewrite Eq; now left). pose proof (po_queued P Hk) as X.
    destruct (D k (queue_lt P Hk)) as [o Y]. congruence. }
  split; [exact H1|]. split; [exact H2|]. intros Hf. unfold finished in Hf.
  destruct (p_queue p) as [|k q] eqn:Eq; [|discriminate]. apply Nat.eqb_eq in Hf. rewrite (po_busy P) in Hf.
  assert (D : forall k, k < length (p_futures p) -> exists o, nth_error (p_futures p) k = Some (Some o)).
  { intros k Hk. destruct (H1 k Hk) as [X|[[]|(tid & q & X)]]; [auto|]. apply nth_error_In in X.
    pose proof (@count_zero _ _ _ Hf _ X) as Y. discriminate. }
  auto.
Qed.
End Client.
