(** Invariants of the thread pool and of parallel_foreach. *)
From Verif Require Import M_Base M_Pool S_Pool P_Base.
Local Open Scope nat_scope.

(** ** Lists *)

Lemma nth_error_set A (l : list A) n m v x : nth_error (set_nth n l v) m = Some x ->
  (m = n /\ x = v /\ n < length l) \/ (m <> n /\ nth_error l m = Some x).
Proof.
  intros H. destruct (Nat.eq_dec m n) as [->|Hn].
  - destruct (Nat.lt_ge_cases n (length l)) as [L|L].
    + rewrite set_nth_same in H by auto. left. injection H as <-. auto.
    + assert (E : nth_error (set_nth n l v) n <> None) by congruence. apply nth_error_Some in E.
      rewrite set_nth_length in E. lia.
  - right. split; [auto|]. rewrite set_nth_other in H by auto. exact H.
Qed.
Lemma nth_error_lt A (l : list A) n x : nth_error l n = Some x -> n < length l.
Proof. intros H. apply nth_error_Some. congruence. Qed.

Fixpoint count {A} (f : A -> bool) (l : list A) : nat :=
  match l with [] => 0 | x :: r => (if f x then 1 else 0) + count f r end.
Lemma count_set A (f : A -> bool) (l : list A) n v x : nth_error l n = Some x ->
  count f (set_nth n l v) + (if f x then 1 else 0) = count f l + (if f v then 1 else 0).
Proof.
  revert n; induction l as [|y l IH]; intros [|n] H; cbn in H; try discriminate; cbn.
  - injection H as ->. lia.
  - specialize (IH _ H). lia.
Qed.
Lemma count_le A (f : A -> bool) (l : list A) : count f l <= length l.
Proof. induction l as [|x l IH]; cbn; [lia|]. destruct (f x); lia. Qed.
Lemma count_map A (f : A -> bool) (g : A -> A) l : (forall x, f (g x) = f x) -> count f (map g l) = count f l.
Proof. intros H. induction l as [|x l IH]; cbn; [reflexivity|]. rewrite H, IH. reflexivity. Qed.
Lemma count_zero A (f : A -> bool) l : count f l = 0 -> forall x, In x l -> f x = false.
Proof.
  induction l as [|y l IH]; cbn; [tauto|]. intros H x [<-|Hx].
  - destruct (f y); [lia|reflexivity].
  - apply IH; [lia|auto].
Qed.
Lemma seq_split a b (x y : list nat) : seq a b = x ++ y -> NoDup x /\ NoDup y /\ forall k, In k x -> ~ In k y.
Proof.
  intros H. pose proof (seq_NoDup b a) as N. rewrite H in N.
  split; [|split].
  - clear H. revert N. induction x as [|k x IH]; cbn; [constructor|]. intros N. inversion N; subst.
    constructor; [|auto]. intros X. apply H1, in_or_app. now left.
  - clear H. revert N. induction x as [|k x IH]; cbn; [auto|]. intros N. inversion N; auto.
  - intros k Hx Hy. clear H. revert N Hx. induction x as [|k' x IH]; cbn; [tauto|]. intros N [->|Hx].
    + inversion N; subst. apply H1, in_or_app. now right.
    + inversion N; subst. auto.
Qed.

(** ** Programs *)

Section Prog.
Variables (M B loc V : Type) (get : M -> loc -> V).
Notation agree := (agree get).
Notation confined := (confined (B := B) get).

Lemma agree_refl P m : agree P m m.
Proof. intros l _. reflexivity. Qed.
Lemma agree_sym P m m' : agree P m m' -> agree P m' m.
Proof. intros H l Hl. symmetry. auto. Qed.
Lemma agree_trans P m1 m2 m3 : agree P m1 m2 -> agree P m2 m3 -> agree P m1 m3.
Proof. intros H1 H2 l Hl. rewrite H1, H2; auto. Qed.
Lemma agree_sub (P Q : loc -> Prop) m m' : (forall l, Q l -> P l) -> agree P m m' -> agree Q m m'.
Proof. intros H A l Hl. auto. Qed.
Lemma agree_either P Q m m' : agree P m m' -> agree Q m m' -> agree (either P Q) m m'.
Proof. intros H1 H2 l [H|H]; auto. Qed.

(** Induction over code. *)
Lemma prog_ind2 (P : prog M B -> Prop) : (forall o, P (Ret o)) ->
  (forall f, (forall m, P (snd (f m))) -> P (Act f)) -> forall p, P p.
Proof.
  intros HR HA. fix IH 1. intros [o|f]; [apply HR|]. apply HA. intros m. destruct (f m) as [m' p']. exact (IH p').
Qed.

Lemma confined_run W R p : confined W R p -> forall m m', agree (either W R) m m' ->
  snd (run p m) = snd (run p m') /\ forall l, get m l = get m' l -> get (fst (run p m)) l = get (fst (run p m')) l.
Proof.
  induction 1 as [o|f H1 H2 H3 IH]; intros m m' A; [cbn; auto|].
  cbn. destruct (H1 _ _ A) as [E1 E2].
  assert (A' : agree (either W R) (fst (f m)) (fst (f m'))) by (intros l Hl; apply E2, A, Hl).
  specialize (IH m _ _ A').
  destruct (f m) as [m1 p1], (f m') as [m1' p1']. cbn in *. subst p1'. destruct IH as [I1 I2]. auto.
Qed.
Lemma confined_agree W R p : confined W R p -> forall m m', agree (either W R) m m' ->
  agree (either W R) (fst (run p m)) (fst (run p m')).
Proof. intros H m m' A l Hl. apply (confined_run H A). auto. Qed.
Lemma confined_frame W R p : confined W R p -> forall m l, ~ W l -> get (fst (run p m)) l = get m l.
Proof.
  induction 1 as [o|f H1 H2 H3 IH]; intros m l Hl; [reflexivity|].
  cbn. specialize (IH m (fst (f m)) l Hl). specialize (H2 m l Hl). destruct (f m) as [m1 p1]. cbn in *. congruence.
Qed.
Lemma confined_mono (W R W' R' : loc -> Prop) p : (forall l, W l -> W' l) -> (forall l, R l -> either W' R' l) ->
  confined W R p -> confined W' R' p.
Proof.
  intros HW HR. induction 1 as [o|f H1 H2 H3 IH]; [constructor|].
  assert (HE : forall l, either W R l -> either W' R' l) by (intros l [H|H]; [left; auto|auto]).
  constructor; [|intros m l Hl; apply H2; auto|exact IH].
  intros m m' A. apply H1. eapply agree_sub; eauto.
Qed.
Lemma confined_bind W R p k : confined W R p -> (forall b, confined W R (k b)) -> confined W R (pbind p k).
Proof.
  induction 1 as [o|f H1 H2 H3 IH]; intros Hk.
  - destruct o; cbn; auto; constructor.
  - cbn. constructor.
    + intros m m' A. specialize (H1 m m' A). destruct (f m) as [m1 p1], (f m') as [m1' p1']. cbn in *.
      destruct H1 as [-> E]. auto.
    + intros m l Hl. specialize (H2 m l Hl). destruct (f m). exact H2.
    + intros m. specialize (IH m Hk). destruct (f m). exact IH.
Qed.
Lemma run_bind (p : prog M B) (k : B -> prog M B) (m : M) : run (pbind p k) m =
  match run p m with
  | (m', Ok b) => run (k b) m'
  | (m', Throw e) => (m', Throw e)
  | (m', UB) => (m', UB)
  end.
Proof.
  revert m. induction p as [o|f IH] using prog_ind2; intros m.
  - destruct o; reflexivity.
  - cbn. specialize (IH m). destruct (f m) as [m' p']. cbn in IH. apply IH.
Qed.
End Prog.

(** ** The pool with any client *)

Section Pool.
Variables M B : Type.
Notation pool := (pool M B).
Notation wstate := (wstate M B).

Definition is_active (w : wstate) : bool :=
  match w with WRun _ _ => true | WFin _ => true | _ => false end.

Record pool_ok (n : nat) (p : pool) : Prop := {
  po_workers : length (p_workers p) = n;
  po_queue : seq 0 (length (p_futures p)) = map fst (p_log p) ++ p_queue p;
  po_log : forall k tid, In (k, tid) (p_log p) -> tid < n;
  po_busy : p_busy p = count is_active (p_workers p);
  po_running : forall tid k q, nth_error (p_workers p) tid = Some (WRun k q) ->
    In (k, tid) (p_log p) /\ nth_error (p_futures p) k = Some None;
  po_distinct : forall tid tid' k q q', nth_error (p_workers p) tid = Some (WRun k q) ->
    nth_error (p_workers p) tid' = Some (WRun k q') -> tid = tid';
  po_queued : forall k, In k (p_queue p) -> nth_error (p_futures p) k = Some None;
  po_pending : forall k, nth_error (p_futures p) k = Some None ->
    In k (p_queue p) \/ exists tid q, nth_error (p_workers p) tid = Some (WRun k q);
  po_exit : forall tid, nth_error (p_workers p) tid = Some (WExit) -> p_stop p = true
}.

Lemma log_lt n p k tid : pool_ok n p -> In (k, tid) (p_log p) -> k < length (p_futures p).
Proof.
  intros H Hk. assert (In k (seq 0 (length (p_futures p)))) as X.
  { rewrite (po_queue H). apply in_or_app. left. apply in_map_iff. now exists (k, tid). }
  apply in_seq in X. lia.
Qed.
Lemma queue_lt n p k : pool_ok n p -> In k (p_queue p) -> k < length (p_futures p).
Proof.
  intros H Hk. assert (In k (seq 0 (length (p_futures p)))) as X.
  { rewrite (po_queue H). apply in_or_app. now right. }
  apply in_seq in X. lia.
Qed.
Lemma log_queue n p k tid : pool_ok n p -> In (k, tid) (p_log p) -> ~ In k (p_queue p).
Proof.
  intros H Hk. destruct (seq_split (po_queue H)) as (_ & _ & D). apply D. apply in_map_iff. now exists (k, tid).
Qed.

Lemma pool_ok_init m (bs : list B) : pool_ok (length bs) (pool_init m bs).
Proof.
  split; cbn; try tauto.
  - apply map_length.
  - induction bs; cbn; auto.
  - intros tid k q H. apply nth_error_In in H. apply in_map_iff in H. destruct H as (b & [=] & _).
  - intros tid tid' k q q' H. apply nth_error_In in H. apply in_map_iff in H. destruct H as (b & [=] & _).
  - intros k H. destruct k; discriminate.
  - intros tid H. apply nth_error_In in H. apply in_map_iff in H. destruct H as (b & [=] & _).
Qed.

Ltac inv_set H :=
  let E := fresh "E" in let N := fresh "N" in
  apply nth_error_set in H; destruct H as [(-> & E & _)|(N & H)]; [try discriminate E; try (injection E as -> ->)|].

Lemma pool_ok_wake n p tid b : pool_ok n p -> nth_error (p_workers p) tid = Some (WSleep b) -> pool_ok n (wake p tid b).
Proof.
  intros [H1 H2 H3 H4 H5 H6 H7 H8 H9] Hw. pose proof (count_set is_active (WIdle b) Hw) as HC. cbn in HC.
  split; cbn [wake set_worker p_workers p_futures p_log p_queue p_busy p_stop]; auto; unfold set_worker.
  - rewrite set_nth_length. exact H1.
  - lia.
  - intros t' k' q' X. inv_set X. eauto.
  - intros t1 t2 k' q1 q2 X Y. inv_set X; inv_set Y; auto. eauto.
  - intros k' X. destruct (H8 _ X) as [Y|(t' & q' & Y)]; [auto|]. right.
    exists t', q'. rewrite set_nth_other; [exact Y|]. intros ->. congruence.
  - intros t' X. inv_set X. eauto.
Qed.

Lemma pool_ok_push n p p' : pool_ok n p -> push p = Some p' -> pool_ok n p'.
Proof.
  intros H E. pose proof H as [H1 H2 H3 H4 H5 H6 H7 H8 H9]. unfold push in E. destruct (p_stop p) eqn:Es; [discriminate|].
  injection E as <-. split; cbn [p_workers p_futures p_log p_queue p_busy p_stop]; auto.
  - rewrite app_length. cbn. rewrite seq_app, H2. cbn. now rewrite app_assoc.
  - intros tid k q X. destruct (H5 _ _ _ X) as [Y Z]. split; [auto|]. rewrite nth_error_app1; [auto|]. eapply log_lt; eauto.
  - intros k X. apply in_app_or in X. destruct X as [X|[<-|[]]].
    + rewrite nth_error_app1; [auto|]. eapply queue_lt; eauto.
    + rewrite nth_error_app2, Nat.sub_diag by lia. reflexivity.
  - intros k X. destruct (Nat.lt_ge_cases k (length (p_futures p))) as [L|L].
    + rewrite nth_error_app1 in X by auto. destruct (H8 _ X); [left; apply in_or_app; now left|now right].
    + pose proof (nth_error_lt X) as L'. rewrite app_length in L'. cbn in L'. left. apply in_or_app. right. left. lia.
Qed.

Lemma nth_error_notify (ws : list wstate) t w :
  nth_error (map (fun w => match w with WSleep b => WIdle b | _ => w end) ws) t = Some w ->
  exists w0, nth_error ws t = Some w0 /\ w = match w0 with WSleep b => WIdle b | _ => w0 end.
Proof. rewrite nth_error_map. destruct (nth_error ws t) as [w0|]; cbn; [|discriminate]. intros [= <-]. eauto. Qed.

Lemma pool_ok_notify_all n p : pool_ok n p -> pool_ok n (notify_all p).
Proof.
  intros [H1 H2 H3 H4 H5 H6 H7 H8 H9].
  split; cbn [notify_all p_workers p_futures p_log p_queue p_busy p_stop]; auto.
  - now rewrite map_length.
  - rewrite count_map; [exact H4|]. now intros [].
  - intros t k q X. apply nth_error_notify in X. destruct X as ([] & X & E); try discriminate. injection E as -> ->. eauto.
  - intros t1 t2 k q1 q2 X Y. apply nth_error_notify in X, Y. destruct X as ([] & X & E); try discriminate. injection E as -> ->.
    destruct Y as ([] & Y & E); try discriminate. injection E as -> ->. eauto.
  - intros k X. destruct (H8 _ X) as [Y|(t & q & Y)]; [auto|]. right. exists t, q. rewrite nth_error_map, Y. reflexivity.
  - intros t X. apply nth_error_notify in X. destruct X as ([] & X & E); try discriminate. eauto.
Qed.

Lemma pool_ok_stop n p : pool_ok n p -> pool_ok n (set_stop p).
Proof. intros [H1 H2 H3 H4 H5 H6 H7 H8 H9]. split; cbn; auto. Qed.

Lemma pool_ok_notify n p p' : pool_ok n p -> notify_one p p' -> pool_ok n p'.
Proof. intros H [tid b Hw|_]; [now apply pool_ok_wake|auto]. Qed.

Variables (task : nat -> nat -> B -> prog M B) (junk : B -> Prop).

Lemma pool_ok_worker n p tid p' : pool_ok n p -> worker_step task junk p tid p' -> pool_ok n p'.
Proof.
  intros H S. pose proof H as [H1 H2 H3 H4 H5 H6 H7 H8 H9].
  destruct S as [b k q Hw Hs Hq|b Hw Hs|b Hw Hs Hq|k f Hw|k b Hw|k e b Hw Hj|b Hw]; unfold set_worker;
    pose proof (nth_error_lt Hw) as Ht;
    match goal with |- context [set_nth tid _ ?v] => pose proof (count_set is_active v Hw) as HC; cbn in HC end.
  - assert (Hk : In k (p_queue p)) by (rewrite Hq; now left). pose proof (H7 _ Hk) as Hf.
    assert (Hn : forall x, ~ In (k, x) (p_log p)) by (intros x X; apply (log_queue H X); exact Hk).
    split; cbn [p_workers p_futures p_log p_queue p_busy p_stop].
    + rewrite set_nth_length. exact H1.
    + rewrite map_app. cbn. rewrite <- app_assoc. cbn. rewrite <- Hq. exact H2.
    + intros k' t' X. apply in_app_or in X. destruct X as [X|[[= <- <-]|[]]]; [eauto|lia].
    + lia.
    + intros t' k' q' X. inv_set X.
      * split; [apply in_or_app; right; now left|exact Hf].
      * destruct (H5 _ _ _ X). split; [apply in_or_app; now left|auto].
    + intros t1 t2 k' q1 q2 X Y. inv_set X; inv_set Y; auto.
      * exfalso. eapply Hn. apply (H5 _ _ _ Y).
      * exfalso. eapply Hn. apply (H5 _ _ _ X).
      * eauto.
    + intros k' X. apply H7. rewrite Hq. now right.
    + intros k' X. destruct (H8 _ X) as [Y|(t' & q' & Y)].
      * rewrite Hq in Y. destruct Y as [->|Y]; [|auto]. right. exists tid. eexists. apply set_nth_same. exact Ht.
      * right. exists t', q'. rewrite set_nth_other; [exact Y|]. intros ->. congruence.
    + intros t' X. inv_set X. rewrite (H9 _ X) in Hs. discriminate.
  - split; cbn [p_workers p_futures p_log p_queue p_busy p_stop]; auto.
    + rewrite set_nth_length. exact H1.
    + lia.
    + intros t' k' q' X. inv_set X. eauto.
    + intros t1 t2 k' q1 q2 X Y. inv_set X; inv_set Y; auto. eauto.
    + intros k' X. destruct (H8 _ X) as [Y|(t' & q' & Y)]; [auto|].
      right. exists t', q'. rewrite set_nth_other; [exact Y|]. intros ->. congruence.
  - split; cbn [p_workers p_futures p_log p_queue p_busy p_stop]; auto.
    + rewrite set_nth_length. exact H1.
    + rewrite H2, Hq. reflexivity.
    + lia.
    + intros t' k' q' X. inv_set X. eauto.
    + intros t1 t2 k' q1 q2 X Y. inv_set X; inv_set Y; auto. eauto.
    + intros k' [].
    + intros k' X. destruct (H8 _ X) as [Y|(t' & q' & Y)]; [rewrite Hq in Y; auto|].
      right. exists t', q'. rewrite set_nth_other; [exact Y|]. intros ->. congruence.
    + intros t' X. inv_set X. rewrite (H9 _ X) in Hs. discriminate.
  - split; cbn [p_workers p_futures p_log p_queue p_busy p_stop]; auto.
    + rewrite set_nth_length. exact H1.
    + lia.
    + intros t' k' q' X. inv_set X; eauto.
    + intros t1 t2 k' q1 q2 X Y. inv_set X; inv_set Y; auto.
      * eauto.
      * eauto.
      * eauto.
    + intros k' X. destruct (H8 _ X) as [Y|(t' & q' & Y)]; [auto|]. right.
      destruct (Nat.eq_dec t' tid) as [->|Hne].
      * rewrite Hw in Y. injection Y as <- <-. exists tid. eexists. apply set_nth_same. exact Ht.
      * exists t', q'. rewrite set_nth_other; auto.
    + intros t' X. inv_set X. eauto.
  - assert (Hl : forall t' q', nth_error (p_workers p) t' = Some (WRun k q') -> t' = tid) by eauto.
    destruct (H5 _ _ _ Hw) as [Hlog Hf].
    split; cbn [p_workers p_futures p_log p_queue p_busy p_stop]; auto.
    + rewrite set_nth_length. exact H1.
    + rewrite set_nth_length. exact H2.
    + lia.
    + intros t' k' q' X. inv_set X. destruct (H5 _ _ _ X). split; [auto|].
      rewrite set_nth_other; [auto|]. intros <-. apply N. eauto.
    + intros t1 t2 k' q1 q2 X Y. inv_set X; inv_set Y; auto. eauto.
    + intros k' X. rewrite set_nth_other; [auto|]. intros <-. eapply log_queue; eauto.
    + intros k' X. inv_set X. destruct (H8 _ X) as [Y|(t' & q' & Y)]; [auto|]. right.
      exists t', q'. rewrite set_nth_other; [exact Y|]. intros ->. rewrite Hw in Y. injection Y as <- <-. congruence.
    + intros t' X. inv_set X. eauto.
  - assert (Hl : forall t' q', nth_error (p_workers p) t' = Some (WRun k q') -> t' = tid) by eauto.
    destruct (H5 _ _ _ Hw) as [Hlog Hf].
    split; cbn [p_workers p_futures p_log p_queue p_busy p_stop]; auto.
    + rewrite set_nth_length. exact H1.
    + rewrite set_nth_length. exact H2.
    + lia.
    + intros t' k' q' X. inv_set X. destruct (H5 _ _ _ X). split; [auto|].
      rewrite set_nth_other; [auto|]. intros <-. apply N. eauto.
    + intros t1 t2 k' q1 q2 X Y. inv_set X; inv_set Y; auto. eauto.
    + intros k' X. rewrite set_nth_other; [auto|]. intros <-. eapply log_queue; eauto.
    + intros k' X. inv_set X. destruct (H8 _ X) as [Y|(t' & q' & Y)]; [auto|]. right.
      exists t', q'. rewrite set_nth_other; [exact Y|]. intros ->. rewrite Hw in Y. injection Y as <- <-. congruence.
    + intros t' X. inv_set X. eauto.
  - split; cbn [p_workers p_futures p_log p_queue p_busy p_stop]; auto.
    + rewrite set_nth_length. exact H1.
    + lia.
    + intros t' k' q' X. inv_set X. eauto.
    + intros t1 t2 k' q1 q2 X Y. inv_set X; inv_set Y; auto. eauto.
    + intros k' X. destruct (H8 _ X) as [Y|(t' & q' & Y)]; [auto|]. right.
      exists t', q'. rewrite set_nth_other; [exact Y|]. intros ->. congruence.
    + intros t' X. inv_set X. eauto.
Qed.

Lemma pool_ok_step n p p' : pool_ok n p -> pool_step task junk p p' -> pool_ok n p'.
Proof.
  intros H [tid q S|tid b S|q S|q S| |].
  - eapply pool_ok_worker; eauto.
  - now apply pool_ok_wake.
  - eapply pool_ok_push; eauto.
  - eapply pool_ok_notify; eauto.
  - now apply pool_ok_notify_all.
  - now apply pool_ok_stop.
Qed.

Lemma pool_ok_reach m bs p : reach (pool_step task junk) (pool_init m bs) p -> pool_ok (length bs) p.
Proof. induction 1; [apply pool_ok_init|eapply pool_ok_step; eauto]. Qed.
End Pool.


(** ** parallel_foreach *)

Lemma first_error_app a b : first_error (a ++ b) = match first_error a with Some e => Some e | None => first_error b end.
Proof. induction a as [|[| |] a IH]; cbn; auto. Qed.
Lemma first_error_snoc (f : nat -> outcome unit) k :
  first_error (map f (seq 0 (S k))) = keep_first (first_error (map f (seq 0 k))) (f k).
Proof.
  rewrite seq_S, map_app, first_error_app. cbn. destruct (first_error _); [reflexivity|]. now destruct (f k).
Qed.

Section Foreach.
Variables (M B loc V : Type) (get : M -> loc -> V).
Variables (task : nat -> nat -> B -> prog M B) (junk I : B -> Prop) (m n : nat).
Variables (F : nat -> loc -> Prop) (R : loc -> Prop) (m0 : M) (fin : nat -> M) (res : nat -> outcome unit).
Hypothesis tok : tasks_ok get m task I F R m0 fin res.
Hypothesis junk_ok : forall b, junk b -> I b.
Notation pool := (pool M B).
Notation agree := (agree get).

(** A worker computes the result of its task. *)
Definition worker_ok (mem : M) (w : wstate M B) : Prop :=
  match w with
  | WIdle b | WSleep b | WFin b => I b
  | WRun k q => k < m /\ confined get (F k) R q /\ agree (F k) (fst (run q mem)) (fin k) /\
      ends I (snd (run q mem)) (res k)
  | WExit => True
  end.

Record mem_ok (p : pool) : Prop := {
  mo_workers : forall tid w, nth_error (p_workers p) tid = Some w -> worker_ok (p_mem p) w;
  mo_fresh : forall k, k < m -> (forall tid, ~ In (k, tid) (p_log p)) -> agree (F k) (p_mem p) m0;
  mo_done : forall k o, nth_error (p_futures p) k = Some (Some o) -> o = res k /\ agree (F k) (p_mem p) (fin k);
  mo_rest : forall l, (forall k, k < m -> ~ F k l) -> get (p_mem p) l = get m0 l;
  mo_len : length (p_futures p) <= m
}.

Lemma mem_readonly p : mem_ok p -> agree R (p_mem p) m0.
Proof. intros H l Hl. apply (mo_rest H). intros k Hk X. exact (to_readonly tok Hk X Hl). Qed.

(** Another task's access to memory does not disturb task [j]. *)
Lemma access_other k j f mem : k < m -> j < m -> k <> j -> confined (B := B) get (F k) R (Act f) ->
  agree (either (F j) R) mem (fst (f mem)).
Proof.
  intros Hk Hj Hne Hc. inversion Hc as [|f' _ Hw _]; subst. intros l Hl. symmetry. apply Hw. intros X.
  destruct Hl as [Hl|Hl]; [exact (to_disjoint tok Hk Hj Hne X Hl)|exact (to_readonly tok Hk X Hl)].
Qed.

Lemma worker_ok_agree mem mem' w : worker_ok mem w ->
  (forall k q, w = WRun k q -> agree (either (F k) R) mem mem') -> worker_ok mem' w.
Proof.
  destruct w as [b|b|k q|b|]; cbn; auto. intros (H1 & H2 & H3 & H4) A. specialize (A _ _ eq_refl).
  destruct (confined_run H2 A) as [E1 E2]. pose proof (confined_agree H2 A) as E3.
  split; [auto|]. split; [auto|]. rewrite <- E1. split; [|auto].
  eapply agree_trans; [|exact H3]. apply agree_sym. eapply agree_sub; [|exact E3]. now left.
Qed.

Lemma mem_ok_init bs : Forall I bs -> mem_ok (pool_init m0 bs).
Proof.
  intros HI. split; cbn.
  - intros tid w X. apply nth_error_In in X. apply in_map_iff in X. destruct X as (b & <- & X).
    rewrite Forall_forall in HI. cbn. auto.
  - intros k _ _. apply agree_refl.
  - intros k o X. destruct k; discriminate.
  - reflexivity.
  - lia.
Qed.

Ltac inv_set H :=
  let E := fresh "E" in let N := fresh "N" in
  apply nth_error_set in H; destruct H as [(-> & E & _)|(N & H)]; [try discriminate E|].

Lemma mem_ok_worker p tid p' : pool_ok n p -> mem_ok p -> worker_step task junk p tid p' -> mem_ok p'.
Proof.
  intros P H St. pose proof H as [H1 H2 H3 H4 H5].
  destruct St as [b k q Hw Hs Hq|b Hw Hs|b Hw Hs Hq|k f Hw|k b Hw|k e b Hw Hj|b Hw]; unfold set_worker;
    pose proof (nth_error_lt Hw) as Ht; pose proof (H1 _ _ Hw) as Hok; cbn in Hok.
  - assert (Hk : In k (p_queue p)) by (rewrite Hq; now left). pose proof (queue_lt P Hk) as Hkm.
    assert (Hn : forall x, ~ In (k, x) (p_log p)) by (intros x X; apply (log_queue P X); exact Hk).
    split; cbn [p_mem p_workers p_futures p_log]; auto.
    + intros t w X. inv_set X; [subst w|eauto]. cbn. assert (Hm : k < m) by lia.
      pose proof (to_confined tok tid b Hm) as C. destruct (to_result tok tid Hm Hok) as [R1 R2].
      assert (A : agree (either (F k) R) (p_mem p) m0).
      { apply agree_either; [apply H2; auto|now apply mem_readonly]. }
      destruct (confined_run C A) as [E1 _]. pose proof (confined_agree C A) as E2.
      split; [auto|]. split; [auto|]. rewrite E1. split; [|auto].
      eapply agree_trans; [|exact R1]. eapply agree_sub; [|exact E2]. now left.
    + intros j Hj X. apply H2; [auto|]. intros t Y. apply (X t). apply in_or_app. now left.
  - split; cbn [p_mem p_workers p_futures p_log]; auto. intros t w X. inv_set X; [subst w; exact Logic.I|eauto].
  - split; cbn [p_mem p_workers p_futures p_log]; auto. intros t w X. inv_set X; [subst w; exact Hok|eauto].
  - destruct Hok as (K1 & K2 & K3 & K4). pose proof K2 as K2'. inversion K2 as [|f' C1 C2 C3]; subst f'.
    destruct (po_running P Hw) as [Hlog Hfut].
    split; cbn [p_mem p_workers p_futures p_log]; auto.
    + intros t w X. inv_set X.
      * subst w. cbn. split; [auto|]. split; [auto|]. cbn in K3, K4. destruct (f (p_mem p)) as [m1 p1]. cbn in *. auto.
      * apply (worker_ok_agree (H1 _ _ X)). intros j q ->. pose proof (H1 _ _ X) as (J1 & _).
        apply (access_other (p_mem p) K1 J1); [|exact K2']. intros <-. apply N. eapply (po_distinct P); eauto.
    + intros j Hj X. assert (Hne : k <> j) by (intros <-; apply (X tid); auto).
      eapply agree_trans; [|now apply H2]. apply agree_sym.
      eapply agree_sub; [|exact (access_other (p_mem p) K1 Hj Hne K2')]. now left.
    + intros j o X. destruct (H3 _ _ X) as [-> A]. split; [reflexivity|]. pose proof (nth_error_lt X) as L.
      assert (Hne : k <> j) by (intros <-; congruence).
      eapply agree_trans; [|exact A]. apply agree_sym.
      eapply agree_sub; [|exact (access_other (p_mem p) K1 (ltac:(lia) : j < m) Hne K2')]. now left.
    + intros l Hl. rewrite C2; auto.
  - destruct Hok as (K1 & K2 & K3 & K4). cbn in K3, K4. destruct (res k) as [[]| |] eqn:Er; try contradiction.
    split; cbn [p_mem p_workers p_futures p_log]; auto.
    + intros t w X. inv_set X; [subst w; exact K4|eauto].
    + intros j o X. inv_set X; [|eauto]. injection E as ->. auto.
    + rewrite set_nth_length. auto.
  - destruct Hok as (K1 & K2 & K3 & K4). cbn in K3, K4. destruct (res k) as [|e'|] eqn:Er; try contradiction. subst e'.
    split; cbn [p_mem p_workers p_futures p_log]; auto.
    + intros t w X. inv_set X; [subst w; now apply junk_ok|eauto].
    + intros j o X. inv_set X; [|eauto]. injection E as ->. auto.
    + rewrite set_nth_length. auto.
  - split; cbn [p_mem p_workers p_futures p_log]; auto. intros t w X. inv_set X; [subst w; exact Hok|eauto].
Qed.

Lemma mem_ok_wake p tid b : mem_ok p -> nth_error (p_workers p) tid = Some (WSleep b) -> mem_ok (wake p tid b).
Proof.
  intros [H1 H2 H3 H4 H5] Hw. pose proof (H1 _ _ Hw) as Hok.
  split; cbn [wake p_mem p_workers p_futures p_log]; auto. unfold set_worker. intros t w X. inv_set X; [subst w; exact Hok|eauto].
Qed.

(** What the caller knows. *)
Definition all_done (p : pool) (k : nat) : Prop := forall j, j < k -> exists o, nth_error (p_futures p) j = Some (Some o).
Definition total : option error := first_error (map res (seq 0 m)).
Definition caller_ok (p : pool) (c : caller) : Prop :=
  match c with
  | CEnqueue k | CNotify k => k <= m /\ length (p_futures p) = k /\ p_stop p = false
  | CWait k exc => k <= m /\ length (p_futures p) = m /\ p_stop p = false /\ all_done p k /\
      exc = first_error (map res (seq 0 k))
  | CStop exc => length (p_futures p) = m /\ p_stop p = false /\ all_done p m /\ exc = total
  | CNotifyAll exc | CJoin exc => length (p_futures p) = m /\ p_stop p = true /\ all_done p m /\ exc = total
  | CReturn exc => length (p_futures p) = m /\ p_stop p = true /\ all_done p m /\ exc = total /\
      forall w, In w (p_workers p) -> w = WExit
  | CRejected => False
  end.

(** No wake up is lost. *)
Definition asleep (w : wstate M B) : bool := match w with WSleep _ | WExit => true | _ => false end.
Record live_ok (p : pool) (c : caller) : Prop := {
  lo_queue : p_stop p = false -> p_queue p <> [] -> (forall w, In w (p_workers p) -> asleep w = true) -> exists k, c = CNotify k;
  lo_stop : p_stop p = true -> (exists b, In (WSleep b) (p_workers p)) -> exists exc, c = CNotifyAll exc
}.

Definition inv (s : pool * caller) : Prop :=
  pool_ok n (fst s) /\ mem_ok (fst s) /\ caller_ok (fst s) (snd s) /\ live_ok (fst s) (snd s).

Lemma worker_futures p tid p' : worker_step task junk p tid p' ->
  length (p_futures p') = length (p_futures p) /\ p_stop p' = p_stop p /\
  forall j o, nth_error (p_futures p) j = Some (Some o) -> exists o', nth_error (p_futures p') j = Some (Some o').
Proof.
  intros [b k q Hw Hs Hq|b Hw Hs|b Hw Hs Hq|k f Hw|k b Hw|k e b Hw Hj|b Hw]; cbn; rewrite ?set_nth_length; repeat split; eauto.
  - intros j o X. destruct (Nat.eq_dec k j) as [->|Hne]; [|rewrite set_nth_other; eauto].
    rewrite set_nth_same; eauto. eapply nth_error_lt; eauto.
  - intros j o X. destruct (Nat.eq_dec k j) as [->|Hne]; [|rewrite set_nth_other; eauto].
    rewrite set_nth_same; eauto. eapply nth_error_lt; eauto.
Qed.

Lemma caller_ok_worker p tid p' c : caller_ok p c -> worker_step task junk p tid p' -> caller_ok p' c.
Proof.
  intros H S. destruct (worker_futures S) as (E1 & E2 & E3).
  assert (D : forall k, all_done p k -> all_done p' k) by (intros k X j Hj; destruct (X j Hj); eauto).
  destruct c; cbn in *; rewrite ?E1, ?E2; auto; repeat match goal with X : _ /\ _ |- _ => destruct X end; repeat split; auto.
  intros w Hw. destruct S as [b k q Sw Hs Hq|b Sw Hs|b Sw Hs Hq|k f Sw|k b Sw|k e b Sw Hj|b Sw];
    apply nth_error_In in Sw; match goal with X : forall w, In w _ -> _ |- _ => apply X in Sw; discriminate end.
Qed.

Lemma live_worker p tid p' c : pool_ok n p -> live_ok p c -> worker_step task junk p tid p' -> live_ok p' c.
Proof.
  intros P [L1 L2] St. pose proof (worker_futures St) as (_ & Es & _). split.
  - intros Hs0 Hq Ha. exfalso.
    assert (X : forall w, nth_error (p_workers p') tid = Some w -> asleep w = true) by (intros w X; apply Ha; eapply nth_error_In; eauto).
    destruct St as [b k q Hw Hs Hq'|b Hw Hs|b Hw Hs Hq'|k f Hw|k b Hw|k e b Hw Hj|b Hw]; cbn in Hs0, Hq, X; unfold set_worker in X;
      pose proof (nth_error_lt Hw) as Ht; try (specialize (X _ (set_nth_same _ Ht)); discriminate X); congruence.
  - rewrite Es. intros Hs [b Hb]. apply L2; [auto|]. exists b.
    apply In_nth_error in Hb. destruct Hb as [t Hb].
    destruct St as [b' k q Hw Hs' Hq|b' Hw Hs'|b' Hw Hs' Hq|k f Hw|k b' Hw|k e b' Hw Hj|b' Hw]; cbn in Hb; unfold set_worker in Hb; inv_set Hb;
      try (apply (nth_error_In _ _ Hb)); congruence.
Qed.

(** Caller steps; there are workers. *)
Hypothesis n_pos : 0 < n.
Lemma caller_inv p c p' c' : pool_ok n p -> mem_ok p -> caller_ok p c -> live_ok p c ->
  caller_step m p c p' c' -> pool_ok n p' /\ mem_ok p' /\ caller_ok p' c' /\ live_ok p' c'.
Proof.
  intros P Hm Hc [L1 L2] St. destruct St as [k p' Hk Hp|k Hk Hp|k p' Hn|k Hk|k exc o Hk Ho|k exc Hk|exc|exc|exc Hx].
  - pose proof (pool_ok_push P Hp) as P'. unfold push in Hp. destruct Hc as (C1 & C2 & C3). rewrite C3 in Hp. injection Hp as <-.
    split; [exact P'|]. split; [|split].
    + destruct Hm as [H1 H2 H3 H4 H5]. split; cbn [p_mem p_workers p_futures p_log]; auto.
      * intros j o X. destruct (Nat.lt_ge_cases j (length (p_futures p))) as [L|L].
        -- rewrite nth_error_app1 in X by auto. auto.
        -- rewrite nth_error_app2 in X by auto. destruct (j - length (p_futures p)) as [|x]; cbn in X; [discriminate|].
           destruct x; discriminate.
      * rewrite app_length. cbn. lia.
    + cbn. rewrite app_length. cbn. lia.
    + split; cbn; [eauto|discriminate].
  - exfalso. unfold push in Hp. destruct Hc as (_ & _ & C3). rewrite C3 in Hp. discriminate.
  - pose proof (pool_ok_notify P Hn) as P'. destruct Hn as [tid b Hw|Hno].
    + split; [exact P'|]. split; [now apply mem_ok_wake|]. split; [exact Hc|]. split; cbn.
      * intros _ _ Ha. exfalso. specialize (Ha (WIdle b)). cbn in Ha. discriminate Ha.
        eapply nth_error_In. unfold set_worker. apply set_nth_same. eapply nth_error_lt; eauto.
      * destruct Hc as (_ & _ & ->). discriminate.
    + split; [exact P'|]. split; [exact Hm|]. split; [exact Hc|]. split.
      * intros Hs Hq Ha. exfalso. assert (E : forall w, In w (p_workers p) -> w = WExit).
        { intros w Hw. pose proof (Ha _ Hw) as A. destruct w as [|b| | |]; try discriminate A; [|reflexivity].
          apply In_nth_error in Hw. destruct Hw as [t Hw]. now apply Hno in Hw. }
        destruct (p_workers p) as [|w ws] eqn:Ew.
        -- pose proof (po_workers P) as X. rewrite Ew in X. cbn in X. lia.
        -- specialize (E w (or_introl eq_refl)). subst w. rewrite (po_exit P (tid := 0)) in Hs; [discriminate|]. now rewrite Ew.
      * destruct Hc as (_ & _ & ->). discriminate.
  - destruct Hc as (C1 & C2 & C3). split; [exact P|]. split; [exact Hm|]. split.
    + cbn. assert (k = m) by lia. subst k. repeat split; auto; try lia. intros j Hj. lia.
    + split; [|congruence]. intros Hs Hq Ha. destruct (L1 Hs Hq Ha) as [k' E]. discriminate.
  - destruct Hc as (C1 & C2 & C3 & C4 & C5). split; [exact P|]. split; [exact Hm|]. split.
    + cbn [caller_ok]. destruct (mo_done Hm Ho) as [-> _]. repeat split; auto; try lia.
      * intros j Hj. destruct (Nat.eq_dec j k) as [->|]; [eauto|]. apply C4. lia.
      * rewrite first_error_snoc. now subst exc.
    + split; [|congruence]. intros Hs Hq Ha. destruct (L1 Hs Hq Ha) as [k' E]. discriminate.
  - destruct Hc as (C1 & C2 & C3 & C4 & C5). split; [exact P|]. split; [exact Hm|]. assert (k = m) by lia. subst k. split.
    + cbn. auto.
    + split; [|congruence]. intros Hs Hq Ha. destruct (L1 Hs Hq Ha) as [k' E]. discriminate.
  - destruct Hc as (C1 & C2 & C3 & C4). split; [now apply pool_ok_stop|]. split.
    + destruct Hm as [H1 H2 H3 H4 H5]. split; cbn; auto.
    + split; [cbn; auto|]. split; cbn; [discriminate|eauto].
  - destruct Hc as (C1 & C2 & C3 & C4). split; [now apply pool_ok_notify_all|]. split.
    + destruct Hm as [H1 H2 H3 H4 H5]. split; cbn [notify_all p_mem p_workers p_futures p_log]; auto.
      intros t w X. apply nth_error_notify in X. destruct X as (w0 & X & ->). pose proof (H1 _ _ X) as Y. destruct w0; exact Y.
    + split; [cbn; auto|]. split; cbn; [congruence|]. intros _ [b Hb]. apply in_map_iff in Hb. destruct Hb as ([] & E & _); discriminate.
  - destruct Hc as (C1 & C2 & C3 & C4). split; [exact P|]. split; [exact Hm|]. split; [cbn; auto|].
    split; [congruence|]. intros _ [b Hb]. apply Hx in Hb. discriminate.
Qed.

Lemma inv_step s s' : inv s -> foreach_step task junk m s s' -> inv s'.
Proof.
  intros Hi St. revert Hi. destruct St as [s1 s2 St|p c tid b Sw]; [destruct St as [p c tid p' Sw|p c p' c' Sc]|];
    intros (P & Hm & Hc & Hl); cbn [fst snd] in *; unfold inv; cbn [fst snd].
  - split; [eapply pool_ok_worker; eauto|].
    split; [eapply mem_ok_worker; eauto|]. split; [eapply caller_ok_worker; eauto|].
    eapply live_worker; eauto.
  - eapply caller_inv; eauto.
  - split; [now apply pool_ok_wake|]. split; [now apply mem_ok_wake|]. split.
    + destruct c; cbn in *; auto; repeat match goal with X : _ /\ _ |- _ => destruct X end; repeat split; auto.
      intros w Hw. apply nth_error_In in Sw. match goal with X : forall w, In w _ -> _ |- _ => apply X in Sw; discriminate end.
    + destruct Hl as [L1 L2]. split; cbn; unfold set_worker.
      * intros _ _ Ha. exfalso. specialize (Ha (WIdle b)). cbn in Ha. discriminate Ha.
        eapply nth_error_In. apply set_nth_same. eapply nth_error_lt; eauto.
      * intros Hs [b' Hb]. apply L2; [auto|]. exists b'. apply In_nth_error in Hb. destruct Hb as [t Hb]. inv_set Hb.
        eapply nth_error_In; eauto.
Qed.

Lemma inv_init bs : Forall I bs -> length bs = n -> inv (pool_init m0 bs, CEnqueue 0).
Proof.
  intros HI Hn. unfold inv. cbn [fst snd]. split; [rewrite <- Hn; apply pool_ok_init|]. split; [now apply mem_ok_init|].
  split; [cbn; lia|]. split; cbn; [congruence|discriminate].
Qed.

Lemma inv_reach bs s : Forall I bs -> length bs = n ->
  reach (foreach_step task junk m) (pool_init m0 bs, CEnqueue 0) s -> inv s.
Proof. intros HI Hn. induction 1; [now apply inv_init|eapply inv_step; eauto]. Qed.

(** The result does not depend on the schedule. *)
Theorem foreach_result bs p c : Forall I bs -> length bs = n ->
  reach (foreach_step task junk m) (pool_init m0 bs, CEnqueue 0) (p, c) ->
  c <> CRejected /\
  forall exc, c = CReturn exc ->
    exc = first_error (map res (seq 0 m)) /\
    map fst (p_log p) = seq 0 m /\ (forall k tid, In (k, tid) (p_log p) -> tid < n) /\
    (forall k, k < m -> agree (F k) (p_mem p) (fin k)) /\
    (forall l, (forall k, k < m -> ~ F k l) -> get (p_mem p) l = get m0 l).
Proof.
  intros HI Hn Hr. destruct (inv_reach HI Hn Hr) as (P & Hm & Hc & Hl). cbn [fst snd] in *.
  split; [intros ->; exact Hc|]. intros exc ->. destruct Hc as (C1 & C2 & C3 & C4 & C5).
  split; [exact C4|]. split; [|split; [exact (po_log P)|split]].
  - pose proof (po_queue P) as Q. rewrite C1 in Q. destruct (p_queue p) as [|k q] eqn:Eq; [now rewrite app_nil_r in Q|].
    exfalso. assert (Hk : In k (p_queue p)) by (rewrite Eq; now left).
    pose proof (po_queued P Hk) as X. destruct (C3 k) as [o Y]; [|congruence].
    pose proof (queue_lt P Hk). lia.
  - intros k Hk. destruct (C3 k Hk) as [o Y]. apply (mo_done Hm Y).
  - exact (mo_rest Hm).
Qed.

(** No deadlock. *)
Theorem foreach_progress bs p c : Forall I bs -> length bs = n -> (exists b, junk b) ->
  reach (foreach_step task junk m) (pool_init m0 bs, CEnqueue 0) (p, c) ->
  (exists exc, c = CReturn exc) \/ exists s', real_step task junk m (p, c) s'.
Proof.
  intros HI Hn [bj Hj] Hr. destruct (inv_reach HI Hn Hr) as (P & Hm & Hc & Hl). cbn [fst snd] in *.
  assert (D : (forall w, In w (p_workers p) -> asleep w = true) \/ exists t w, nth_error (p_workers p) t = Some w /\ asleep w = false).
  { generalize (p_workers p) as ws. clear. induction ws as [|w ws IH]; [left; intros w []|].
    destruct (asleep w) eqn:E; [|right; exists 0, w; auto].
    destruct IH as [IH|(t & w' & H1 & H2)]; [left|right; exists (S t), w'; auto].
    intros w' [<-|H]; auto. }
  destruct D as [Ha|(t & w & Hw & Ea)].
  2:{ right. pose proof (mo_workers Hm Hw) as Ok_.
      destruct w as [b|b|k q|b|]; try discriminate Ea.
      - destruct (p_stop p) eqn:Es.
        + eexists. eapply s_worker. eapply step_exit; eauto.
        + destruct (p_queue p) as [|k q] eqn:Eq.
          * eexists. eapply s_worker. eapply step_sleep; eauto.
          * eexists. eapply s_worker. eapply step_take; eauto.
      - destruct q as [[b|e|]|f].
        + eexists. eapply s_worker. eapply step_return; eauto.
        + eexists. eapply s_worker. eapply step_throw; eauto.
        + destruct Ok_ as (_ & _ & _ & E). cbn in E. contradiction.
        + eexists. eapply s_worker. eapply step_act; eauto.
      - eexists. eapply s_worker. eapply step_fin; eauto. }
  destruct c as [k|k|k exc|exc|exc|exc|exc|].
  - right. destruct (Nat.lt_ge_cases k m) as [L|L].
    + destruct (push p) as [p'|] eqn:E; eexists; eapply s_caller; [eapply c_push|eapply c_reject]; eauto.
    + eexists. eapply s_caller. now eapply c_enqueued.
  - right. assert (X : (exists t b, nth_error (p_workers p) t = Some (WSleep b)) \/ forall t b, nth_error (p_workers p) t <> Some (WSleep b)).
    { generalize (p_workers p) as ws. clear. induction ws as [|w ws IH]; [right; intros [|t] b; discriminate|].
      destruct IH as [(t & b & H)|IH]; [left; exists (S t), b; exact H|].
      destruct w as [b|b|k q|b|]; try (left; exists 0, b; reflexivity); right; intros [|t] b'; cbn; try discriminate; auto. }
    destruct X as [(t & b & X)|X]; eexists; eapply s_caller; eapply c_notify; [eapply notify_some|eapply notify_none]; eauto.
  - right. destruct Hc as (C1 & C2 & C3 & C4 & C5). destruct (Nat.lt_ge_cases k m) as [L|L].
    + destruct (nth_error (p_futures p) k) as [[o|]|] eqn:E.
      * eexists. eapply s_caller. eapply c_get; eauto.
      * exfalso. destruct (po_pending P E) as [Hq|(t & q & Hq)].
        -- destruct (lo_queue Hl C3) as [k' X]; [intros X; rewrite X in Hq; destruct Hq|auto|discriminate].
        -- apply nth_error_In in Hq. apply Ha in Hq. discriminate.
      * apply nth_error_None in E. lia.
    + eexists. eapply s_caller. now eapply c_got.
  - right. eexists. eapply s_caller. eapply c_stop.
  - right. eexists. eapply s_caller. eapply c_notify_all.
  - right. destruct Hc as (C1 & C2 & C3 & C4). eexists. eapply s_caller. eapply c_join.
    intros w Hw. pose proof (Ha _ Hw) as A. destruct w as [|b| | |]; try discriminate A; [|reflexivity].
    destruct (lo_stop Hl C2) as [e X]; [eauto|discriminate].
  - left. eauto.
  - contradiction.
Qed.

(** ** Termination *)

(** Number of accesses a task makes when it is not interrupted. *)
Fixpoint steps (q : prog M B) (mem : M) : nat :=
  match q with
  | Ret _ => 0
  | Act f => let (mem', q') := f mem in S (steps q' mem')
  end.
Lemma confined_steps W q : confined get W R q -> forall mem mem', agree (either W R) mem mem' -> steps q mem = steps q mem'.
Proof.
  induction 1 as [o|f H1 H2 H3 IH]; intros mem mem' A; [reflexivity|]. cbn. destruct (H1 _ _ A) as [E1 E2].
  assert (A' : agree (either W R) (fst (f mem)) (fst (f mem'))) by (intros l Hl; apply E2, A, Hl).
  specialize (IH mem _ _ A'). destruct (f mem) as [m1 p1], (f mem') as [m2 p2]. cbn in *. subst p2. now rewrite IH.
Qed.

Fixpoint sum {A} (f : A -> nat) (l : list A) : nat := match l with [] => 0 | x :: r => f x + sum f r end.
Lemma sum_set A (f : A -> nat) (l : list A) t v x : nth_error l t = Some x ->
  sum f (set_nth t l v) + f x = sum f l + f v.
Proof.
  revert t; induction l as [|y l IH]; intros [|t] H; cbn in H; try discriminate; cbn.
  - injection H as ->. lia.
  - specialize (IH _ H). lia.
Qed.
Lemma sum_ext A (f g : A -> nat) (l : list A) : (forall x, In x l -> f x = g x) -> sum f l = sum g l.
Proof. induction l as [|x l IH]; cbn; [auto|]. intros H. rewrite (H x), IH; auto. Qed.

Lemma sum_set_ext A (f g : A -> nat) (l : list A) t v x : nth_error l t = Some x ->
  (forall t' w, t' <> t -> nth_error l t' = Some w -> f w = g w) ->
  sum f (set_nth t l v) + g v = sum g (set_nth t l v) + f v.
Proof.
  revert t; induction l as [|y l IH]; intros [|t] H X; cbn in H; try discriminate; cbn.
  - rewrite (@sum_ext A f g l); [lia|]. intros w Hw. apply In_nth_error in Hw. destruct Hw as [t Hw]. apply (X (S t)); auto.
  - specialize (IH _ H). rewrite (X 0 y) by auto. enough (sum f (set_nth t l v) + g v = sum g (set_nth t l v) + f v) by lia.
    apply IH. intros t' w Hne Hw. apply (X (S t')); auto.
Qed.

Definition weight (w : wstate M B) : nat :=
  match w with WIdle _ => 1 | WSleep _ => 0 | WRun _ _ => 3 | WFin _ => 2 | WExit => 0 end.
Definition rank (c : caller) : nat :=
  match c with
  | CEnqueue k => 3 * (m - k) + (m + n + 10)
  | CNotify k => 3 * (m - k) + (m + n + 10) + 2
  | CWait k _ => m - k + (n + 6)
  | CStop _ => n + 4
  | CNotifyAll _ => n + 3
  | CJoin _ => 2
  | CReturn _ => 1
  | CRejected => 0
  end.
Definition phi1 (s : pool * caller) : nat :=
  3 * (m - length (p_log (fst s))) + sum weight (p_workers (fst s)) + rank (snd s).
Definition work (mem : M) (w : wstate M B) : nat := match w with WRun _ q => steps q mem | _ => 0 end.
Definition phi2 (s : pool * caller) : nat := sum (work (p_mem (fst s))) (p_workers (fst s)).

Lemma sum_notify (ws : list (wstate M B)) :
  sum weight (map (fun w => match w with WSleep b => WIdle b | _ => w end) ws) <= sum weight ws + length ws.
Proof. induction ws as [|w ws IH]; cbn; [lia|]. destruct w; cbn; lia. Qed.

Lemma phi_step s s' : inv s -> real_step task junk m s s' ->
  phi1 s' < phi1 s \/ (phi1 s' = phi1 s /\ phi2 s' < phi2 s).
Proof.
  intros Hi St. revert Hi. destruct St as [p c tid p' Sw|p c p' c' Sc]; intros (P & Hm & Hc & Hl); cbn [fst snd] in *.
  - destruct Sw as [b k q Hw Hs Hq|b Hw Hs|b Hw Hs Hq|k f Hw|k b Hw|k e b Hw Hj|b Hw]; unfold phi1, phi2; cbn [fst snd p_log p_workers p_mem];
      unfold set_worker;
      match goal with |- context [set_nth tid _ ?v] => pose proof (sum_set weight v Hw) as HC; cbn in HC end; try (left; lia).
    + left. rewrite app_length. cbn. pose proof (po_queue P) as Q. apply (f_equal (@length _)) in Q.
      rewrite seq_length, app_length, map_length, Hq in Q. cbn in Q. pose proof (mo_len Hm). lia.
    + right. split; [lia|]. pose proof (mo_workers Hm Hw) as (K1 & K2 & _).
      pose proof (sum_set (work (p_mem p)) (WRun k (snd (f (p_mem p)))) Hw) as HD. cbn in HD.
      assert (E : sum (work (fst (f (p_mem p)))) (set_nth tid (p_workers p) (WRun k (snd (f (p_mem p))))) +
                  steps (snd (f (p_mem p))) (p_mem p) =
                  sum (work (p_mem p)) (set_nth tid (p_workers p) (WRun k (snd (f (p_mem p))))) +
                  steps (snd (f (p_mem p))) (fst (f (p_mem p)))).
      { assert (X : forall t w, t <> tid -> nth_error (p_workers p) t = Some w -> work (fst (f (p_mem p))) w = work (p_mem p) w).
        { intros t w Hne X. destruct w as [| |j q| |]; try reflexivity. cbn. symmetry.
          pose proof (mo_workers Hm X) as (J1 & J2 & _). apply (confined_steps J2).
          apply (access_other (p_mem p) K1 J1); [|exact K2]. intros <-. apply Hne. eapply (po_distinct P); eauto. }
        exact (sum_set_ext (WRun k (snd (f (p_mem p)))) Hw X). }
      destruct (f (p_mem p)) as [m1 q1]. cbn in *. lia.
  - destruct Sc as [k p' Hk Hp|k Hk Hp|k p' Hn|k Hk|k exc o Hk Ho|k exc Hk|exc|exc|exc Hx]; unfold phi1; cbn [fst snd rank]; left; try lia.
    + unfold push in Hp. destruct (p_stop p); [discriminate|]. injection Hp as <-. cbn. lia.
    + destruct Hn as [tid b Hw|_]; [|lia]. cbn. unfold set_worker. pose proof (sum_set weight (WIdle b) Hw) as HC. cbn in HC. lia.
    + cbn [set_stop p_log p_workers]. lia.
    + cbn [notify_all p_log p_workers]. pose proof (sum_notify (p_workers p)). pose proof (po_workers P). lia.
Qed.

(** Without spurious wake ups every schedule ends. *)
Lemma acc_inv s : inv s -> Acc (fun s' s => real_step task junk m s s') s.
Proof.
  remember (phi1 s) as a eqn:Ea. revert s Ea. induction a as [a IHa] using lt_wf_ind. intros s Ea.
  remember (phi2 s) as b eqn:Eb. revert s Ea Eb. induction b as [b IHb] using lt_wf_ind. intros s Ea Eb Hi.
  constructor. intros s' St. assert (Hi' : inv s') by (eapply inv_step; [exact Hi|now constructor]).
  destruct (phi_step Hi St) as [L|[E L]].
  - eapply IHa; [|reflexivity|exact Hi']. lia.
  - eapply IHb; [| |reflexivity|exact Hi']; lia.
Qed.

Theorem foreach_terminates bs s : Forall I bs -> length bs = n ->
  reach (foreach_step task junk m) (pool_init m0 bs, CEnqueue 0) s ->
  Acc (fun s' s => real_step task junk m s s') s.
Proof. intros. apply acc_inv. eapply inv_reach; eauto. Qed.
End Foreach.
