(** Two systems that run related code on related memories reach related states. *)
From Verif Require Import M_Base M_Pool P_Base P_Pool.
Import List ListNotations.
Local Open Scope list_scope.
Local Open Scope nat_scope.

Section Sim.
Variables (M1 M2 B : Type) (Rm : M1 -> M2 -> Prop).

Inductive psim : prog M1 B -> prog M2 B -> Prop :=
| sim_ret o : psim (Ret o) (Ret o)
| sim_act f1 f2 :
    (forall m1 m2, Rm m1 m2 -> Rm (fst (f1 m1)) (fst (f2 m2))) ->
    (forall m1 m2, Rm m1 m2 -> psim (snd (f1 m1)) (snd (f2 m2))) ->
    psim (Act f1) (Act f2).

Lemma psim_bind p1 p2 k1 k2 : psim p1 p2 -> (forall b, psim (k1 b) (k2 b)) -> psim (pbind p1 k1) (pbind p2 k2).
Proof.
  intros H K. induction H as [o|f1 f2 H1 H2 IH].
  - destruct o; cbn; try constructor. apply K.
  - cbn. constructor; intros m1 m2 Hm; specialize (H1 _ _ Hm); specialize (IH _ _ Hm);
      destruct (f1 m1), (f2 m2); cbn in *; auto.
Qed.

Lemma psim_run p1 p2 : psim p1 p2 -> forall m1 m2, Rm m1 m2 ->
  Rm (fst (run p1 m1)) (fst (run p2 m2)) /\ snd (run p1 m1) = snd (run p2 m2).
Proof.
  induction 1 as [o|f1 f2 H1 H2 IH]; intros m1 m2 Hm; [now split|].
  specialize (H1 _ _ Hm). specialize (IH _ _ Hm). cbn. destruct (f1 m1), (f2 m2); cbn in *. apply IH. exact H1.
Qed.

Lemma psim_batch A (f1 : nat -> A -> B -> prog M1 B) (f2 : nat -> A -> B -> prog M2 B) tid l :
  (forall i b, In i l -> psim (f1 tid i b) (f2 tid i b)) -> forall b, psim (batch_prog f1 tid l b) (batch_prog f2 tid l b).
Proof.
  induction l as [|i l IH]; intros H b; cbn; [constructor|]. apply psim_bind; [apply H; now left|].
  intros b'. apply IH. intros j b'' Hj. apply H. now right.
Qed.

Inductive wsim : wstate M1 B -> wstate M2 B -> Prop :=
| ws_idle b : wsim (WIdle b) (WIdle b)
| ws_sleep b : wsim (WSleep b) (WSleep b)
| ws_run k p1 p2 : psim p1 p2 -> wsim (WRun k p1) (WRun k p2)
| ws_fin b : wsim (WFin b) (WFin b)
| ws_exit : wsim WExit WExit.

Record pool_sim (p1 : pool M1 B) (p2 : pool M2 B) : Prop := {
  sim_mem : Rm (p_mem p1) (p_mem p2);
  sim_queue : p_queue p1 = p_queue p2;
  sim_stop : p_stop p1 = p_stop p2;
  sim_busy : p_busy p1 = p_busy p2;
  sim_processed : p_processed p1 = p_processed p2;
  sim_workers : Forall2 wsim (p_workers p1) (p_workers p2);
  sim_futures : p_futures p1 = p_futures p2;
  sim_log : p_log p1 = p_log p2
}.

Lemma Forall2_nth_l A C (R : A -> C -> Prop) l1 l2 t x : Forall2 R l1 l2 -> nth_error l1 t = Some x ->
  exists y, nth_error l2 t = Some y /\ R x y.
Proof.
  intros H. revert t. induction H as [|a c l1 l2 H _ IH]; intros [|t]; cbn; try discriminate.
  - intros E. injection E as <-. eauto.
  - apply IH.
Qed.
Lemma Forall2_set A C (R : A -> C -> Prop) l1 l2 t x y : Forall2 R l1 l2 -> R x y ->
  Forall2 R (set_nth t l1 x) (set_nth t l2 y).
Proof. intros H Hxy. revert t. induction H; intros [|t]; cbn; constructor; auto. Qed.

Variables (task1 : nat -> nat -> B -> prog M1 B) (task2 : nat -> nat -> B -> prog M2 B).
Variables (junk : B -> Prop) (n m : nat).
Hypothesis tasks : forall k tid b, tid < n -> psim (task1 k tid b) (task2 k tid b).

Lemma length_set A (l : list A) t x : length (set_nth t l x) = length l.
Proof. revert t. induction l; intros [|t]; cbn; auto. Qed.

Lemma sim_worker p1 p2 tid p1' : pool_sim p1 p2 -> length (p_workers p1) = n -> worker_step task1 junk p1 tid p1' ->
  exists p2', worker_step task2 junk p2 tid p2' /\ pool_sim p1' p2' /\ length (p_workers p1') = n.
Proof.
  intros S Ln H. destruct S as [Sm Sq Ss Sb Sp Sw Sf Sl]. destruct p1 as [m1 q1 st1 bz1 pr1 w1 f1 l1], p2 as [m2 q2 st2 bz2 pr2 w2 f2 l2].
  cbn in *. subst. inversion H; subst; cbn in *; subst;
  match goal with
  | X : nth_error _ tid = Some _ |- _ => destruct (Forall2_nth_l Sw X) as (wy & Ey & Wy); pose proof (nth_error_lt X) as Lt; inversion Wy; subst
  end.
  - eexists. split; [eapply step_take; cbn; eauto|]. split; [|unfold set_worker; rewrite length_set; reflexivity].
    constructor; cbn; auto. apply Forall2_set; [exact Sw|]. constructor. now apply tasks.
  - eexists. split; [eapply step_exit; cbn; eauto|]. split; [|unfold set_worker; rewrite length_set; reflexivity].
    constructor; cbn; auto. apply Forall2_set; [exact Sw|constructor].
  - eexists. split; [eapply step_sleep; cbn; eauto|]. split; [|unfold set_worker; rewrite length_set; reflexivity].
    constructor; cbn; auto. apply Forall2_set; [exact Sw|constructor].
  - match goal with Q : psim (Act _) _ |- _ => inversion Q; subst end.
    eexists. split; [eapply step_act; cbn; eauto|]. split; [|unfold set_worker; rewrite length_set; reflexivity].
    constructor; cbn; auto. apply Forall2_set; [exact Sw|]. constructor. auto.
  - match goal with Q : psim (Ret _) _ |- _ => inversion Q; subst end.
    eexists. split; [eapply step_return; cbn; eauto|]. split; [|unfold set_worker; rewrite length_set; reflexivity].
    constructor; cbn; auto. apply Forall2_set; [exact Sw|constructor].
  - match goal with Q : psim (Ret _) _ |- _ => inversion Q; subst end.
    eexists. split; [eapply step_throw; cbn; eauto|]. split; [|unfold set_worker; rewrite length_set; reflexivity].
    constructor; cbn; auto. apply Forall2_set; [exact Sw|constructor].
  - eexists. split; [eapply step_fin; cbn; eauto|]. split; [|unfold set_worker; rewrite length_set; reflexivity].
    constructor; cbn; auto. apply Forall2_set; [exact Sw|constructor].
Qed.

Lemma sim_wake p1 p2 tid b : pool_sim p1 p2 -> nth_error (p_workers p1) tid = Some (WSleep b) ->
  nth_error (p_workers p2) tid = Some (WSleep b) /\ pool_sim (wake p1 tid b) (wake p2 tid b).
Proof.
  intros [Sm Sq Ss Sb Sp Sw Sf Sl] H. destruct (Forall2_nth_l Sw H) as (y & Ey & Wy). inversion Wy; subst. split; [exact Ey|].
  constructor; cbn; auto. apply Forall2_set; [exact Sw|constructor].
Qed.

Lemma Forall2_sym A C (R : A -> C -> Prop) l1 l2 : Forall2 R l1 l2 -> Forall2 (fun y x => R x y) l2 l1.
Proof. induction 1; constructor; auto. Qed.

Lemma sim_notify p1 p2 p1' : pool_sim p1 p2 -> notify_one p1 p1' -> exists p2', notify_one p2 p2' /\ pool_sim p1' p2' /\
  length (p_workers p1') = length (p_workers p1).
Proof.
  intros S H. destruct H as [tid b H|H].
  - destruct (sim_wake S H) as [E W]. exists (wake p2 tid b). split; [now constructor|]. split; [exact W|].
    cbn. unfold set_worker. now rewrite length_set.
  - exists p2. split; [|now split]. apply notify_none. intros tid b E.
    destruct (Forall2_nth_l (Forall2_sym (sim_workers S)) E) as (x & Ex & Wx). inversion Wx; subst. now apply (H tid b).
Qed.

Lemma sim_caller p1 p2 c p1' c' : pool_sim p1 p2 -> length (p_workers p1) = n -> caller_step m p1 c p1' c' ->
  exists p2', caller_step m p2 c p2' c' /\ pool_sim p1' p2' /\ length (p_workers p1') = n.
Proof.
  intros S Ln H. pose proof S as [Sm Sq Ss Sb Sp Sw Sf Sl]. inversion H; subst.
  - unfold push in *. destruct (p_stop p1) eqn:E; [discriminate|].
    match goal with X : Some _ = Some _ |- _ => injection X as <- end.
    eexists. split; [apply c_push; [assumption|unfold push; rewrite <- Ss; reflexivity]|].
    split; [constructor; cbn; auto; congruence|reflexivity].
  - exists p2. split; [apply c_reject; [assumption|]|now split]. unfold push in *. rewrite <- Ss. destruct (p_stop p1'); [reflexivity|discriminate].
  - destruct (sim_notify S H0) as (p2' & N & S' & L). exists p2'. split; [now constructor|]. split; [exact S'|congruence].
  - exists p2. split; [now constructor|now split].
  - exists p2. split; [apply c_get; congruence|now split].
  - exists p2. split; [now constructor|now split].
  - eexists. split; [apply c_stop|]. split; [constructor; cbn; auto|reflexivity].
  - eexists. split; [apply c_notify_all|]. split; [|cbn; now rewrite map_length]. constructor; cbn; auto.
    clear -Sw. induction Sw as [|x y l1 l2 Hw _ IH]; cbn; constructor; auto. inversion Hw; subst; now constructor.
  - exists p2. split; [apply c_join|now split]. intros w Hw. apply In_nth_error in Hw. destruct Hw as (t & Ht).
    destruct (Forall2_nth_l (Forall2_sym Sw) Ht) as (x & Ex & Wx). apply nth_error_In in Ex. rewrite (H0 _ Ex) in Wx. now inversion Wx.
Qed.

Lemma sim_reach s1 s2 : pool_sim (fst s1) (fst s2) -> length (p_workers (fst s1)) = n -> snd s1 = snd s2 ->
  forall s1', reach (foreach_step task1 junk m) s1 s1' ->
  exists p2', reach (foreach_step task2 junk m) s2 (p2', snd s1') /\ pool_sim (fst s1') p2' /\ length (p_workers (fst s1')) = n.
Proof.
  intros S L E s1' H. induction H as [|s s' H IH St].
  - exists (fst s2). destruct s2 as [p2 c2]. cbn in *. subst. split; [constructor|now split].
  - destruct IH as (p2 & R & S' & L'). destruct St as [s s' Rs|p c tid b W].
    + destruct Rs as [p c tid p' W|p c p' c' C]; cbn in *.
      * destruct (sim_worker S' L' W) as (p2' & W2 & S2 & L2). exists p2'. split; [|now split].
        eapply reach_step; [exact R|]. apply s_real. now apply s_worker with tid.
      * destruct (sim_caller S' L' C) as (p2' & W2 & S2 & L2). exists p2'. split; [|now split].
        eapply reach_step; [exact R|]. apply s_real. now apply s_caller.
    + cbn in *. destruct (sim_wake S' W) as [E2 S2]. exists (wake p2 tid b). split; [|split; [exact S2|]].
      * eapply reach_step; [exact R|]. now apply s_wake.
      * cbn. unfold set_worker. now rewrite length_set.
Qed.
End Sim.

(** Lifted to whole loops. *)
Theorem sim_foreach M1 M2 B (Rm : M1 -> M2 -> Prop) threads est cnt
    (f1 : nat -> nat -> B -> prog M1 B) (f2 : nat -> nat -> B -> prog M2 B) (junk : B -> Prop) b0 m0 m0' m1 r :
  (forall tid i b, tid < Nat.max 1 (N.to_nat threads) -> i < cnt -> psim Rm (f1 tid i b) (f2 tid i b)) -> Rm m0 m0' ->
  foreach_run threads est cnt f1 junk b0 m0 m1 r ->
  exists m1', foreach_run threads est cnt f2 junk b0 m0' m1' r /\ Rm m1 m1'.
Proof.
  intros Hf Hm H. assert (In_b : forall k i, In i (nth k (batches cnt (chunked_work est) (seq 0 cnt)) []) -> i < cnt).
  { intros k i Hi. assert (X : In i (concat (batches cnt (chunked_work est) (seq 0 cnt)))).
    { apply in_concat. exists (nth k (batches cnt (chunked_work est) (seq 0 cnt)) []). split; [|exact Hi].
      destruct (Nat.lt_ge_cases k (length (batches cnt (chunked_work est) (seq 0 cnt)))) as [L|L]; [now apply nth_In|].
      rewrite nth_overflow in Hi by exact L. destruct Hi. }
    assert (Y : forall A fuel c (l : list A) x, In x (concat (batches fuel c l)) -> In x l).
    { clear. intros A. induction fuel as [|fuel IH]; intros c l x; cbn; [tauto|]. destruct l as [|a l]; [tauto|].
      cbn [concat]. rewrite in_app_iff. intros [Hx|Hx]; [rewrite <- (firstn_skipn (N.to_nat (N.min (lenN (a :: l)) c)) (a :: l)); apply in_or_app; now left|]. apply IH in Hx. rewrite <- (firstn_skipn (N.to_nat (N.min (lenN (a :: l)) c)) (a :: l)). apply in_or_app. now right. }
    apply Y in X. apply in_seq in X. lia. }
  destruct H as [m1 o T E|p exc T H].
  - assert (S : psim Rm (foreach_sequential f1 (seq 0 cnt) b0) (foreach_sequential f2 (seq 0 cnt) b0)).
    { apply psim_batch. intros i b Hi. apply in_seq in Hi. apply Hf; lia. }
    destruct (psim_run S Hm) as [R E']. rewrite E in R, E'. cbn in R, E'.
    destruct (run (foreach_sequential f2 (seq 0 cnt) b0) m0') as [m1' o'] eqn:E2. cbn in *. subst o'.
    exists m1'. split; [now constructor|exact R].
  - destruct (@sim_reach M1 M2 B Rm (fun k tid => batch_prog f1 tid (nth k (batches cnt (chunked_work est) (seq 0 cnt)) []))
      (fun k tid => batch_prog f2 tid (nth k (batches cnt (chunked_work est) (seq 0 cnt)) []))
      junk (N.to_nat threads) (length (batches cnt (chunked_work est) (seq 0 cnt)))) with
      (s1 := (pool_init m0 (repeat b0 (N.to_nat threads)), CEnqueue 0)) (s2 := (pool_init m0' (repeat b0 (N.to_nat threads)), CEnqueue 0))
      (s1' := (p, CReturn exc)) as (p2 & R & S & _).
    + intros k tid b Lt. apply psim_batch. intros i b' Hi. apply Hf; [lia|eauto].
    + constructor; cbn; auto. clear. induction (N.to_nat threads) as [|k IH]; cbn; constructor; [constructor|exact IH].
    + cbn. now rewrite map_length, repeat_length.
    + reflexivity.
    + exact H.
    + exists (p_mem p2). split; [now constructor|]. apply (sim_mem S).
Qed.
