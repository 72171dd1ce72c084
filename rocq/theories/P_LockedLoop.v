(** Loops whose threads read files without a mutex and change them with it. *)
From Coq Require Import Permutation.
From Coq Require String.
From Verif Require Import M_Base M_Dataset M_Parallel M_Pool M_ShardRemove M_RemoveCrash P_Base P_Foreach.
Import List ListNotations.
Local Open Scope list_scope.

Lemma concat_set A (l : list (list A)) t x : nth_error l t = Some x ->
  exists rest, Permutation (concat l) (x ++ rest) /\ forall x', Permutation (concat (set_nth t l x')) (x' ++ rest).
Proof.
  revert l. induction t as [|t IH]; intros [|y l] H; cbn in *; try discriminate.
  - injection H as ->. exists (concat l). auto.
  - destruct (IH l H) as (rest & P1 & P2). exists (y ++ rest). split.
    + rewrite P1. apply Permutation_app_swap_app.
    + intros x'. rewrite P2. apply Permutation_app_swap_app.
Qed.

Lemma combine_fst A B (l : list A) (l' : list B) : length l = length l' -> map fst (combine l l') = l.
Proof. revert l'. induction l as [|a l IH]; intros [|b l'] H; cbn in *; try discriminate; [reflexivity|]. f_equal. apply IH. congruence. Qed.
Lemma combine_snd A B (l : list A) (l' : list B) : length l = length l' -> map snd (combine l l') = l'.
Proof. revert l'. induction l as [|a l IH]; intros [|b l'] H; cbn in *; try discriminate; [reflexivity|]. f_equal. apply IH. congruence. Qed.
Lemma concat_nil A (k : nat) : concat (repeat (@nil A) k) = [].
Proof. induction k; auto. Qed.
Lemma nth_error_rep A (a : A) k t x : nth_error (repeat a k) t = Some x -> x = a.
Proof. intros H. apply nth_error_In in H. now apply repeat_spec in H. Qed.
Lemma nth_error_rep_lt A (a : A) k t : (t < k)%nat -> nth_error (repeat a k) t = Some a.
Proof. revert t. induction k as [|k IH]; intros [|t] H; cbn; try lia; auto. apply IH. lia. Qed.

Lemma fold_first (g : nat -> option (outcome unit)) l exc :
  fold_left (fun exc k => match g k with Some o => keep_first exc o | None => exc end) l exc =
  match exc with
  | Some e => Some e
  | None => fold_left (fun exc k => match g k with Some o => keep_first exc o | None => exc end) l None
  end.
Proof.
  destruct exc as [e|]; [|reflexivity]. induction l as [|k l IH]; cbn; [reflexivity|]. destruct (g k) as [o|]; cbn; apply IH.
Qed.
Lemma fold_result (g : nat -> option (outcome unit)) l :
  match fold_left (fun exc k => match g k with Some o => keep_first exc o | None => exc end) l None with
  | Some e => exists k, In k l /\ g k = Some (Throw e)
  | None => forall k e, In k l -> g k <> Some (Throw e)
  end.
Proof.
  induction l as [|k l IH]; cbn; [intros k e []|]. destruct (g k) as [[u|e|]|] eqn:E; cbn.
  2:{ rewrite fold_first. exists k. auto. }
  all: destruct (fold_left _ l None) as [e|]; [destruct IH as (k' & H1 & H2); exists k'; auto|].
  all: intros k' e [<-|H]; [congruence|auto].
Qed.

Lemma perm_swap2 (A : Type) (x : A) own rest R : Permutation ((own ++ rest) ++ [x] ++ R) (((x :: own) ++ rest) ++ R).
Proof. cbn. symmetry. apply (Permutation_middle (own ++ rest) R x). Qed.

Section Loop.
Variables (X : Type) (item : nat -> X) (valid : X -> Prop) (to_remove : X -> bool).
Variables (whole : list X -> store -> Prop) (torn : list X -> X -> store -> Prop).
(** There is only one worker. *)
Variable alone : bool.
(** The file an item is in. *)
Variable keyof : X -> String.string.

Definition apart (own R : list X) : Prop := forall x, In x own -> ~ In x R.
Definition seen (R : list X) (st : store) : Prop := whole R st \/ (alone = false /\ exists x, torn R x st).
Definition world (R : list X) (x : X) (b : bool) (st : store) : Prop :=
  if b then whole (x :: R) st else whole R st \/ torn R x st.

(** Code outside the mutex that has still to deal with the items [own]; code inside the
    mutex that removes [x], has already done so if [b], and runs with the files [m]. *)
Inductive safe : list X -> lcode -> Prop :=
| safe_done : safe [] (LRet (Ok tt))
| safe_throw own : alone = false -> safe own (LRet (Throw ERuntime))
| safe_act own f : (forall R m, apart own R -> seen R (fst m) -> fst (f m) = m) ->
    (forall R m, apart own R -> seen R (fst m) -> safe own (snd (f m))) -> safe own (LAct f)
| safe_skip x own p : to_remove x = false -> safe own p -> safe (x :: own) p
| safe_lock x own p : to_remove x = true ->
    (forall R m, whole R (fst m) -> ~ In x R -> apart own R -> crit R x own false m p) -> safe (x :: own) (LLock p)
with crit : list X -> X -> list X -> bool -> pmem -> lcode -> Prop :=
| crit_act R x own b b' m f : (forall key, key <> keyof x -> fst (fst (f m)) key = fst m key) ->
    world R x b' (fst (fst (f m))) -> crit R x own b' (fst (f m)) (snd (f m)) ->
    crit R x own b m (LAct f)
| crit_end R x own m p : safe own p -> crit R x own true m (LUnlock p).

Definition head_ok (own : list X) (p : lcode) : Prop :=
  match p with
  | LRet (Ok _) => own = []
  | LRet (Throw e) => alone = false /\ e = ERuntime
  | LRet UB => False
  | LAct f => forall R m, apart own R -> seen R (fst m) -> fst (f m) = m /\ safe own (snd (f m))
  | LLock p => exists x own', own = x :: own' /\ to_remove x = true /\
      forall R m, whole R (fst m) -> ~ In x R -> apart own' R -> crit R x own' false m p
  | LUnlock _ => False
  end.
Lemma safe_norm own p : safe own p ->
  exists pre own', own = pre ++ own' /\ Forall (fun x => to_remove x = false) pre /\ safe own' p /\ head_ok own' p.
Proof.
  revert p. induction own as [|y own IH]; intros p H.
  - exists [], []. split; [reflexivity|]. split; [constructor|]. split; [exact H|]. inversion H; subst; cbn; eauto.
  - inversion H; subst.
    + exists [], (y :: own). split; [reflexivity|]. split; [constructor|]. split; [exact H|]. cbn. auto.
    + exists [], (y :: own). split; [reflexivity|]. split; [constructor|]. split; [exact H|]. cbn. eauto.
    + match goal with Hs : safe own p |- _ => destruct (IH p Hs) as (pre & own' & -> & F & S & Hh) end.
      exists (y :: pre), own'. split; [reflexivity|]. split; [now constructor|]. auto.
    + exists [], (y :: own). split; [reflexivity|]. split; [constructor|]. split; [exact H|]. cbn. eauto.
Qed.

Variable visit : nat -> lcode.
(** The number of tasks. *)
Variable n : nat.

Definition queued (q : list (nat * list nat)) : list X := concat (map (fun e => map item (snd e)) q).
Hypothesis visit_safe : forall i own k, valid (item i) -> safe own k -> safe (item i :: own) (lseq (visit i) k).

Lemma batch_safe b : Forall valid (map item b) -> safe (map item b) (lbatch visit b).
Proof.
  induction b as [|i b IH]; cbn; intros F; [constructor|]. inversion F; subst. apply visit_safe; auto.
Qed.

Record loop_inv (y : lsystem) (R : list X) (owns : list (list X)) (pend : list X) : Prop := {
  li_len : length owns = length (l_workers y);
  li_nodup : NoDup (queued (l_queue y) ++ concat owns ++ pend ++ R);
  li_valid : forall x, In x (queued (l_queue y) ++ concat owns ++ pend ++ R) -> valid x;
  li_removed : forall x, In x (pend ++ R) -> to_remove x = true;
  li_idle : forall t, nth_error (l_workers y) t = Some None -> nth_error owns t = Some [];
  li_run : forall t k p own, nth_error (l_workers y) t = Some (Some (k, p)) -> nth_error owns t = Some own ->
    l_mutex y <> Some t -> safe own p;
  li_state : match l_mutex y with
             | None => pend = [] /\ whole R (fst (l_mem y))
             | Some t => exists x b own k p, pend = [x] /\ nth_error (l_workers y) t = Some (Some (k, p)) /\
                 nth_error owns t = Some own /\ crit R x own b (l_mem y) p /\ world R x b (fst (l_mem y))
             end;
  li_futures : forall k o, l_futures y k = Some o -> (k < n)%nat /\ (o = Ok tt \/ alone = false /\ o = Throw ERuntime);
  li_queue_num : forall k, In k (map fst (l_queue y)) -> (k < n)%nat /\ l_futures y k = None;
  li_queue_once : NoDup (map fst (l_queue y));
  li_run_num : forall t k p, nth_error (l_workers y) t = Some (Some (k, p)) ->
    (k < n)%nat /\ l_futures y k = None /\ ~ In k (map fst (l_queue y));
  li_run_once : forall t t' k p p', nth_error (l_workers y) t = Some (Some (k, p)) ->
    nth_error (l_workers y) t' = Some (Some (k, p')) -> t = t';
  li_cover : (forall k o, l_futures y k = Some o -> o = Ok tt) -> forall x, valid x -> to_remove x = true ->
    In x (queued (l_queue y) ++ concat owns ++ pend ++ R);
  li_alone : alone = true -> length (l_workers y) = 1%nat
}.

(** Items that need not be removed can be forgotten. *)
Lemma inv_drop y R owns pend t pre own k p : loop_inv y R owns pend -> nth_error (l_workers y) t = Some (Some (k, p)) ->
  nth_error owns t = Some (pre ++ own) -> l_mutex y <> Some t -> Forall (fun x => to_remove x = false) pre ->
  safe own p -> loop_inv y R (set_nth t owns own) pend.
Proof.
  intros I W O Mu F S. destruct (concat_set O) as (rest & P1 & P2).
  assert (Lt : (t < length owns)%nat) by (apply nth_error_Some; congruence).
  assert (Q1 : Permutation (queued (l_queue y) ++ concat owns ++ pend ++ R) (pre ++ queued (l_queue y) ++ concat (set_nth t owns own) ++ pend ++ R)).
  { rewrite P1, P2. rewrite !app_assoc. repeat apply Permutation_app_tail. apply Permutation_app_comm. }
  constructor; try (apply I).
  - rewrite set_nth_length. apply I.
  - pose proof (li_nodup I) as N. rewrite Q1 in N. clear - N. induction pre as [|x pre IH]; [exact N|]. inversion N; auto.
  - intros x Hx. apply (li_valid I). rewrite Q1. apply in_or_app. auto.
  - intros t' W'. destruct (Nat.eq_dec t' t) as [->|Ne]; [congruence|]. rewrite set_nth_other by congruence. now apply (li_idle I).
  - intros t' k' p' own' W' O' Mu'. destruct (Nat.eq_dec t' t) as [->|Ne].
    + rewrite set_nth_same in O' by exact Lt. congruence.
    + rewrite set_nth_other in O' by congruence. eapply (li_run I); eauto.
  - pose proof (li_state I) as Hs. destruct (l_mutex y) as [h|]; [|exact Hs]. destruct Hs as (x & b & o & k' & p' & H1 & H2 & H3 & H4 & H5).
    exists x, b, o, k', p'. rewrite set_nth_other by congruence. auto.
  - intros Hq x V T. pose proof (li_cover I Hq V T) as Hc. rewrite Q1 in Hc. apply in_app_or in Hc. destruct Hc as [Hc|Hc]; [|exact Hc].
    rewrite Forall_forall in F. apply F in Hc. congruence.
Qed.

Lemma crit_world y R owns pend t own : loop_inv y R owns pend -> nth_error owns t = Some own ->
  (exists k p, nth_error (l_workers y) t = Some (Some (k, p))) -> l_mutex y <> Some t ->
  exists R', apart own R' /\ seen R' (fst (l_mem y)).
Proof.
  intros I O (k & p & W) Mu. destruct (concat_set O) as (rest & P1 & _).
  assert (Ap : apart own (pend ++ R)).
  { intros x H1 H2. pose proof (li_nodup I) as N. rewrite P1, <- app_assoc in N.
    clear - N H1 H2. induction (queued (l_queue y)) as [|z q IH]; cbn in N.
    - induction own as [|z own IH]; [destruct H1|]. cbn in N. inversion N; subst. destruct H1 as [->|H1]; [|auto].
      apply H3. apply in_or_app. right. apply in_or_app. right. exact H2.
    - inversion N; auto. }
  pose proof (li_state I) as S. destruct (l_mutex y) as [h|] eqn:E.
  - destruct S as (x & b & o & k' & p' & -> & W' & O' & Cr & Wo). destruct b; cbn in Wo.
    + exists (x :: R). split; [exact Ap|]. now left.
    + exists R. split; [intros z H1 H2; apply (Ap z H1); now right|]. destruct Wo as [Wo|Wo]; [now left|]. right. split; [|eauto].
      destruct alone eqn:Ea; [|reflexivity]. pose proof (li_alone I Ea) as L1.
      assert (t < length (l_workers y))%nat by (apply nth_error_Some; congruence).
      assert (h < length (l_workers y))%nat by (apply nth_error_Some; congruence). exfalso. apply Mu. f_equal. lia.
  - destruct S as [-> S]. exists R. split; [exact Ap|now left].
Qed.

(** Worker [t] goes on with the program [p] and the items [own] without touching queue
    and results. *)
Lemma inv_move y R owns pend t k p0 p own m mu R' pend' : loop_inv y R owns pend ->
  nth_error (l_workers y) t = Some (Some (k, p0)) ->
  Permutation (concat (set_nth t owns own) ++ pend' ++ R') (concat owns ++ pend ++ R) ->
  (forall x, In x (pend' ++ R') -> to_remove x = true) ->
  (mu <> Some t -> safe own p) ->
  (forall t', t' <> t -> l_mutex y = Some t' -> mu = Some t') ->
  match mu with
  | None => pend' = [] /\ whole R' (fst m)
  | Some h => exists x b o k' p', pend' = [x] /\ nth_error (set_nth t (l_workers y) (Some (k, p))) h = Some (Some (k', p')) /\
      nth_error (set_nth t owns own) h = Some o /\ crit R' x o b m p' /\ world R' x b (fst m)
  end ->
  loop_inv (LSystem m mu (l_queue y) (set_nth t (l_workers y) (Some (k, p))) (l_futures y)) R' (set_nth t owns own) pend'.
Proof using visit_safe.
  intros I W Pm Rm S Hmu St.
  assert (Lw : (t < length (l_workers y))%nat) by (apply nth_error_Some; congruence).
  assert (Lt : (t < length owns)%nat) by (rewrite (li_len I); exact Lw).
  assert (Q1 : Permutation (queued (l_queue y) ++ concat (set_nth t owns own) ++ pend' ++ R') (queued (l_queue y) ++ concat owns ++ pend ++ R))
    by (now apply Permutation_app_head).
  assert (Wi : forall t' v, nth_error (set_nth t (l_workers y) (Some (k, p))) t' = Some v ->
     (t' = t /\ v = Some (k, p)) \/ (t' <> t /\ nth_error (l_workers y) t' = Some v)).
  { intros t' v H. destruct (Nat.eq_dec t' t) as [->|Ne].
    - rewrite set_nth_same in H by exact Lw. left. split; congruence.
    - rewrite set_nth_other in H by congruence. auto. }
  constructor; cbn [l_mem l_mutex l_queue l_workers l_futures]; try (apply I).
  - rewrite !set_nth_length. apply I.
  - rewrite Q1. apply I.
  - intros x. rewrite Q1. apply (li_valid I).
  - exact Rm.
  - intros t' H. destruct (Wi _ _ H) as [[_ H1]|[Ne H1]]; [discriminate|]. rewrite set_nth_other by congruence. now apply (li_idle I).
  - intros t' k' p' own' H O' Mu'. destruct (Wi _ _ H) as [[-> H1]|[Ne H1]].
    + rewrite set_nth_same in O' by exact Lt. injection H1 as <- <-. injection O' as <-. now apply S.
    + rewrite set_nth_other in O' by congruence. eapply (li_run I); eauto.
  - exact St.
  - intros t' k' p' H. destruct (Wi _ _ H) as [[-> H1]|[Ne H1]]; [injection H1 as <- <-|]; eapply (li_run_num I); eauto.
  - intros t1 t2 k' p1 p2 H1 H2. destruct (Wi _ _ H1) as [[-> E1]|[N1 E1]], (Wi _ _ H2) as [[-> E2]|[N2 E2]]; auto.
    + injection E1 as <- <-. exact (li_run_once I W E2).
    + injection E2 as <- <-. exact (li_run_once I E1 W).
    + exact (li_run_once I E1 E2).
  - intros Hq x V T. rewrite Q1. now apply (li_cover I).
  - rewrite set_nth_length. apply I.
Qed.

Lemma inv_act y R owns pend t k f : loop_inv y R owns pend -> nth_error (l_workers y) t = Some (Some (k, LAct f)) ->
  exists owns', loop_inv (LSystem (fst (f (l_mem y))) (l_mutex y) (l_queue y)
      (set_nth t (l_workers y) (Some (k, snd (f (l_mem y))))) (l_futures y)) R owns' pend.
Proof using visit_safe.
  intros I W. destruct (nth_error owns t) as [own|] eqn:O.
  2:{ apply nth_error_None in O. rewrite (li_len I) in O. apply nth_error_None in O. congruence. }
  destruct (l_mutex y) as [h|] eqn:Em.
  - destruct (Nat.eq_dec h t) as [->|Ne].
    + (* inside the mutex *)
      pose proof (li_state I) as S. rewrite Em in S. destruct S as (x & b & o & k' & p' & -> & W' & O' & Cr & Wo).
      rewrite W in W'. injection W' as <- <-. inversion Cr; subst. exists (set_nth t owns own). rewrite <- Em.
      assert (Lw : (t < length (l_workers y))%nat) by (apply nth_error_Some; congruence).
      assert (Lt : (t < length owns)%nat) by (rewrite (li_len I); exact Lw).
      eapply inv_move; eauto.
      * apply Permutation_app_tail. destruct (concat_set O) as (rest & P1 & P2). now rewrite P1, P2.
      * apply (li_removed I).
      * congruence.
      * rewrite Em. exists x, b', own, k, (snd (f (l_mem y))). split; [reflexivity|]. split; [now apply set_nth_same|].
        split; [now apply set_nth_same|]. split; [|assumption]. congruence.
    + assert (Mu : l_mutex y <> Some t) by congruence.
      destruct (safe_norm (li_run I W O Mu)) as (pre & own' & -> & F & S & Hh). cbn in Hh.
      pose proof (inv_drop I W O Mu F S) as I'.
      assert (Lt : (t < length owns)%nat) by (apply nth_error_Some; congruence).
      assert (O' : nth_error (set_nth t owns own') t = Some own') by (now apply set_nth_same).
      destruct (crit_world I' O' (ex_intro _ k (ex_intro _ _ W)) Mu) as (R' & Ap & Se).
      destruct (Hh R' (l_mem y) Ap Se) as [E1 E2]. rewrite E1. exists (set_nth t (set_nth t owns own') own'). rewrite <- Em.
      eapply inv_move; eauto.
      * apply Permutation_app_tail. destruct (concat_set O') as (rest & P1 & P2). now rewrite P1, P2.
      * apply (li_removed I).
      * pose proof (li_state I') as St. rewrite Em in St |- *. destruct St as (x & b & o & k' & p' & H1 & H2 & H3 & H4 & H5).
        exists x, b, o, k', p'. rewrite !(set_nth_other _ _ (n := t) (m := h)) by congruence.
        rewrite set_nth_other in H3 by congruence. auto.
  - assert (Mu : l_mutex y <> Some t) by congruence.
    destruct (safe_norm (li_run I W O Mu)) as (pre & own' & -> & F & S & Hh). cbn in Hh.
    pose proof (inv_drop I W O Mu F S) as I'.
    assert (Lt : (t < length owns)%nat) by (apply nth_error_Some; congruence).
    assert (O' : nth_error (set_nth t owns own') t = Some own') by (now apply set_nth_same).
    destruct (crit_world I' O' (ex_intro _ k (ex_intro _ _ W)) Mu) as (R' & Ap & Se).
    destruct (Hh R' (l_mem y) Ap Se) as [E1 E2]. rewrite E1. exists (set_nth t (set_nth t owns own') own'). rewrite <- Em.
    eapply inv_move; eauto.
    * apply Permutation_app_tail. destruct (concat_set O') as (rest & P1 & P2). now rewrite P1, P2.
    * apply (li_removed I).
    * pose proof (li_state I') as St. rewrite Em in St |- *. exact St.
Qed.

Lemma inv_lock y R owns pend t k p : loop_inv y R owns pend -> nth_error (l_workers y) t = Some (Some (k, LLock p)) ->
  l_mutex y = None -> exists owns' pend',
  loop_inv (LSystem (l_mem y) (Some t) (l_queue y) (set_nth t (l_workers y) (Some (k, p))) (l_futures y)) R owns' pend'.
Proof using visit_safe.
  intros I W Em. destruct (nth_error owns t) as [own|] eqn:O.
  2:{ apply nth_error_None in O. rewrite (li_len I) in O. apply nth_error_None in O. congruence. }
  assert (Mu : l_mutex y <> Some t) by congruence.
  destruct (safe_norm (li_run I W O Mu)) as (pre & own' & -> & F & S & Hh). cbn in Hh. destruct Hh as (x & own & -> & T & Hc).
  pose proof (inv_drop I W O Mu F S) as I'.
  assert (Lt : (t < length owns)%nat) by (apply nth_error_Some; congruence).
  assert (Lw : (t < length (l_workers y))%nat) by (apply nth_error_Some; congruence).
  assert (O' : nth_error (set_nth t owns (x :: own)) t = Some (x :: own)) by (now apply set_nth_same).
  pose proof (li_state I') as St. rewrite Em in St. destruct St as [-> St].
  destruct (concat_set O') as (rest & P1 & P2).
  exists (set_nth t (set_nth t owns (x :: own)) own), [x].
  pose proof (li_nodup I') as N. rewrite P1 in N.
  assert (N2 : NoDup (((x :: own) ++ rest) ++ R)).
  { clear - N. cbn [app] in N |- *. induction (queued (l_queue y)) as [|z q IH]; [exact N|]. cbn in N. inversion N; auto. }
  eapply inv_move; eauto.
  - rewrite P1, P2. apply perm_swap2.
  - intros z [<-|Hz]; [exact T|]. apply (li_removed I'). exact Hz.
  - intros H. destruct (H eq_refl).
  - intros t' Ne H. congruence.
  - exists x, false, own, k, p. split; [reflexivity|]. split; [now apply set_nth_same|]. split; [apply set_nth_same; now rewrite set_nth_length|].
    split; [|now left]. apply Hc; auto.
    + cbn in N2. apply NoDup_cons_iff in N2. intros H. apply N2. apply in_or_app. now right.
    + intros z H1 H2. cbn in N2. apply NoDup_cons_iff in N2. destruct N2 as [_ N2]. clear - N2 H1 H2. induction own as [|w own IH]; [destruct H1|].
      cbn in N2. apply NoDup_cons_iff in N2. destruct N2 as [N3 N2]. destruct H1 as [->|H1]; [|auto]. apply N3. apply in_or_app. now right.
Qed.

Lemma inv_unlock y R owns pend t k p : loop_inv y R owns pend -> nth_error (l_workers y) t = Some (Some (k, LUnlock p)) ->
  exists R' owns' pend',
  loop_inv (LSystem (l_mem y) None (l_queue y) (set_nth t (l_workers y) (Some (k, p))) (l_futures y)) R' owns' pend'.
Proof using visit_safe.
  intros I W. destruct (nth_error owns t) as [own|] eqn:O.
  2:{ apply nth_error_None in O. rewrite (li_len I) in O. apply nth_error_None in O. congruence. }
  assert (Mu : l_mutex y = Some t).
  { destruct (l_mutex y) as [h|] eqn:E; [destruct (Nat.eq_dec h t) as [->|Ne]; [reflexivity|]|];
      destruct (safe_norm (li_run I W O ltac:(congruence))) as (pre & own' & _ & _ & _ & []). }
  pose proof (li_state I) as S. rewrite Mu in S. destruct S as (x & b & o & k' & p' & -> & W' & O' & Cr & Wo).
  rewrite W in W'. injection W' as <- <-. inversion Cr; subst. rewrite O in O'. injection O' as <-.
  exists (x :: R), (set_nth t owns own), [].
  eapply inv_move; eauto.
  - destruct (concat_set O) as (rest & P1 & P2). now rewrite P1, P2.
  - apply (li_removed I).
  - intros t' Ne H. congruence.
Qed.

Lemma inv_take y R owns pend t k b q : loop_inv y R owns pend -> nth_error (l_workers y) t = Some None ->
  l_queue y = (k, b) :: q -> exists owns',
  loop_inv (LSystem (l_mem y) (l_mutex y) q (set_nth t (l_workers y) (Some (k, lbatch visit b))) (l_futures y)) R owns' pend.
Proof using visit_safe.
  intros I W Eq. pose proof (li_idle I W) as O. destruct (concat_set O) as (rest & P1 & P2). cbn in P1.
  assert (Lt : (t < length owns)%nat) by (apply nth_error_Some; congruence).
  assert (Lw : (t < length (l_workers y))%nat) by (apply nth_error_Some; congruence).
  exists (set_nth t owns (map item b)).
  assert (Q1 : Permutation (queued (l_queue y) ++ concat owns ++ pend ++ R) (queued q ++ concat (set_nth t owns (map item b)) ++ pend ++ R)).
  { rewrite Eq. unfold queued at 1. cbn [map concat snd]. fold (queued q). rewrite P1, P2, <- !app_assoc. apply Permutation_app_swap_app. }
  assert (Wi : forall t' v, nth_error (set_nth t (l_workers y) (Some (k, lbatch visit b))) t' = Some v ->
     (t' = t /\ v = Some (k, lbatch visit b)) \/ (t' <> t /\ nth_error (l_workers y) t' = Some v)).
  { intros t' v H. destruct (Nat.eq_dec t' t) as [->|Ne].
    - rewrite set_nth_same in H by exact Lw. left. split; congruence.
    - rewrite set_nth_other in H by congruence. auto. }
  pose proof (li_queue_num I) as Qn. pose proof (li_queue_once I) as Qo. rewrite Eq in Qn, Qo. cbn in Qn, Qo.
  constructor; cbn [l_mem l_mutex l_queue l_workers l_futures]; try (apply I).
  - rewrite !set_nth_length. apply I.
  - rewrite <- Q1. apply I.
  - intros x. rewrite <- Q1. apply (li_valid I).
  - intros t' H. destruct (Wi _ _ H) as [[_ H1]|[Ne H1]]; [discriminate|]. rewrite set_nth_other by congruence. now apply (li_idle I).
  - intros t' k' p' own' H O' Mu'. destruct (Wi _ _ H) as [[-> H1]|[Ne H1]].
    + rewrite set_nth_same in O' by exact Lt. injection H1 as -> ->. injection O' as <-. apply batch_safe.
      apply Forall_forall. intros x Hx. apply (li_valid I). apply in_or_app. left. rewrite Eq. unfold queued. cbn. apply in_or_app. now left.
    + rewrite set_nth_other in O' by congruence. eapply (li_run I); eauto.
  - pose proof (li_state I) as St. destruct (l_mutex y) as [h|]; [|exact St]. destruct St as (x & b' & o & k' & p' & H1 & H2 & H3 & H4 & H5).
    exists x, b', o, k', p'. rewrite !(set_nth_other _ _ (n := t) (m := h)) by congruence. auto.
  - intros k' H. apply Qn. now right.
  - now inversion Qo.
  - intros t' k' p' H. destruct (Wi _ _ H) as [[-> H1]|[Ne H1]].
    + injection H1 as -> ->. split; [apply Qn; now left|]. split; [apply Qn; now left|]. now inversion Qo.
    + destruct (li_run_num I H1) as (A & B & C). split; [exact A|]. split; [exact B|]. intros D. apply C. rewrite Eq. now right.
  - intros t1 t2 k' p1 p2 H1 H2. destruct (Wi _ _ H1) as [[-> E1]|[N1 E1]], (Wi _ _ H2) as [[-> E2]|[N2 E2]]; auto.
    + injection E1 as -> ->. destruct (li_run_num I E2) as (_ & _ & C). destruct C. rewrite Eq. now left.
    + injection E2 as -> ->. destruct (li_run_num I E1) as (_ & _ & C). destruct C. rewrite Eq. now left.
    + exact (li_run_once I E1 E2).
  - intros Hq x V T. rewrite <- Q1. now apply (li_cover I).
  - rewrite set_nth_length. apply I.
Qed.

Lemma inv_finish y R owns pend t k o : loop_inv y R owns pend -> nth_error (l_workers y) t = Some (Some (k, LRet o)) ->
  exists owns',
  loop_inv (LSystem (l_mem y) (l_mutex y) (l_queue y) (set_nth t (l_workers y) None)
      (fun j => if (j =? k)%nat then Some o else l_futures y j)) R owns' pend.
Proof using visit_safe.
  intros I W. destruct (nth_error owns t) as [own|] eqn:O.
  2:{ apply nth_error_None in O. rewrite (li_len I) in O. apply nth_error_None in O. congruence. }
  assert (Mu : l_mutex y <> Some t).
  { intros E. pose proof (li_state I) as S. rewrite E in S. destruct S as (x & b & o' & k' & p' & -> & W' & O' & Cr & Wo).
    rewrite W in W'. injection W' as <- <-. inversion Cr. }
  destruct (safe_norm (li_run I W O Mu)) as (pre & own' & -> & F & S & Hh).
  pose proof (inv_drop I W O Mu F S) as I'. revert I'.
  assert (Lt : (t < length owns)%nat) by (apply nth_error_Some; congruence).
  assert (Lw : (t < length (l_workers y))%nat) by (apply nth_error_Some; congruence).
  assert (O' : nth_error (set_nth t owns own') t = Some own') by (now apply set_nth_same).
  revert O'. generalize (set_nth t owns own'). clear owns O Lt F S pre I. intros owns O I.
  assert (Lt : (t < length owns)%nat) by (apply nth_error_Some; congruence).
  destruct (concat_set O) as (rest & P1 & P2). specialize (P2 []). cbn in P2.
  assert (Ho : (o = Ok tt /\ own' = []) \/ (alone = false /\ o = Throw ERuntime)).
  { cbn in Hh. destruct o as [[]|e|]; [left; auto|right; destruct Hh as [A ->]; auto|destruct Hh]. }
  assert (Q1 : Permutation (queued (l_queue y) ++ concat owns ++ pend ++ R)
     (own' ++ queued (l_queue y) ++ concat (set_nth t owns []) ++ pend ++ R)).
  { rewrite P1, P2. rewrite !app_assoc. repeat apply Permutation_app_tail. apply Permutation_app_comm. }
  assert (Wi : forall t' v, nth_error (set_nth t (l_workers y) None) t' = Some v ->
     (t' = t /\ v = None) \/ (t' <> t /\ nth_error (l_workers y) t' = Some v)).
  { intros t' v H. destruct (Nat.eq_dec t' t) as [->|Ne].
    - rewrite set_nth_same in H by exact Lw. left. split; congruence.
    - rewrite set_nth_other in H by congruence. auto. }
  destruct (li_run_num I W) as (Kn & Kf & Kq).
  exists (set_nth t owns []).
  constructor; cbn [l_mem l_mutex l_queue l_workers l_futures]; try (apply I).
  - rewrite !set_nth_length. apply I.
  - pose proof (li_nodup I) as N. rewrite Q1 in N. clear - N. induction own' as [|x pre IH]; [exact N|]. inversion N; auto.
  - intros x Hx. apply (li_valid I). rewrite Q1. apply in_or_app. auto.
  - intros t' H. destruct (Wi _ _ H) as [[-> _]|[Ne H1]]; [now apply set_nth_same|]. rewrite set_nth_other by congruence. now apply (li_idle I).
  - intros t' k' p' own2 H O' Mu'. destruct (Wi _ _ H) as [[-> H1]|[Ne H1]]; [discriminate|].
    rewrite set_nth_other in O' by congruence. eapply (li_run I); eauto.
  - pose proof (li_state I) as St. destruct (l_mutex y) as [h|]; [|exact St]. destruct St as (x & b' & o' & k' & p' & H1 & H2 & H3 & H4 & H5).
    exists x, b', o', k', p'. rewrite !(set_nth_other _ _ (n := t) (m := h)) by congruence. auto.
  - intros k' o'. destruct (Nat.eqb_spec k' k) as [->|Ne]; [|apply (li_futures I)]. intros [= <-]. split; [exact Kn|]. destruct Ho as [[-> _]|[A ->]]; auto.
  - intros k' H. destruct (li_queue_num I H) as [A B]. split; [exact A|]. destruct (Nat.eqb_spec k' k) as [->|Ne]; [contradiction|exact B].
  - intros t' k' p' H. destruct (Wi _ _ H) as [[-> H1]|[Ne H1]]; [discriminate|].
    destruct (li_run_num I H1) as (A & B & C). split; [exact A|]. split; [|exact C].
    destruct (Nat.eqb_spec k' k) as [->|Nk]; [|exact B]. destruct Ne. exact (li_run_once I H1 W).
  - intros t1 t2 k' p1 p2 H1 H2. destruct (Wi _ _ H1) as [[-> E1]|[N1 E1]], (Wi _ _ H2) as [[-> E2]|[N2 E2]]; try discriminate.
    exact (li_run_once I E1 E2).
  - intros Hq x V T. pose proof (Hq k o) as Hk. rewrite Nat.eqb_refl in Hk. specialize (Hk eq_refl).
    destruct Ho as [[_ ->]|[_ ->]]; [|discriminate]. cbn in Q1. rewrite <- Q1. apply (li_cover I); auto.
    intros k' o' Hf. apply (Hq k' o'). destruct (Nat.eqb_spec k' k) as [->|Nk]; [congruence|exact Hf].
  - rewrite set_nth_length. apply I.
Qed.

Lemma inv_step y R owns pend y' : loop_inv y R owns pend -> any_lstep visit y y' ->
  exists R' owns' pend', loop_inv y' R' owns' pend'.
Proof using visit_safe.
  intros I [t H]. destruct H.
  - destruct (inv_take I H H0) as (owns' & I'). eauto.
  - destruct (inv_act I H) as (owns' & I'). eauto.
  - destruct (inv_lock I H H0) as (owns' & pend' & I'). eauto.
  - apply (inv_unlock I H).
  - destruct (inv_finish I H) as (owns' & I'). eauto.
Qed.

Variables (st0 : store) (threads : nat) (tasks : list (list nat)).
Hypothesis tasks_n : length tasks = n.
Hypothesis tasks_once : NoDup (map item (concat tasks)).
Hypothesis tasks_all : forall x, In x (map item (concat tasks)) <-> valid x.
Hypothesis threads_pos : (0 < threads)%nat.
Hypothesis threads_alone : alone = true -> threads = 1%nat.
Hypothesis whole0 : whole [] st0.

Lemma inv_init : loop_inv (linit st0 threads tasks) [] (repeat [] threads) [].
Proof using whole0 tasks_once tasks_n tasks_all threads_alone threads_pos visit_safe.
  assert (Q : queued (combine (seq 0 (length tasks)) tasks) = map item (concat tasks)).
  { unfold queued. rewrite <- (map_map snd (map item)), combine_snd by (now rewrite seq_length). now rewrite concat_map. }
  assert (K : map fst (combine (seq 0 (length tasks)) tasks) = seq 0 (length tasks)) by (apply combine_fst; now rewrite seq_length).
  unfold linit. constructor; cbn [l_mem l_mutex l_queue l_workers l_futures fst].
  - now rewrite !repeat_length.
  - rewrite Q, concat_nil. cbn. now rewrite app_nil_r.
  - rewrite Q, concat_nil. cbn. rewrite app_nil_r. apply tasks_all.
  - intros x [].
  - intros t H. apply nth_error_rep_lt. rewrite <- (repeat_length (@None (nat * lcode)) threads). apply nth_error_Some. congruence.
  - intros t k p own H. apply nth_error_rep in H. discriminate.
  - auto.
  - discriminate.
  - rewrite K. intros k H. apply in_seq in H. split; [lia|reflexivity].
  - rewrite K. apply seq_NoDup.
  - intros t k p H. apply nth_error_rep in H. discriminate.
  - intros t t' k p p' H. apply nth_error_rep in H. discriminate.
  - intros _ x V _. rewrite Q. apply in_or_app. left. now apply tasks_all.
  - intros A. rewrite repeat_length. auto.
Qed.

Lemma inv_reach y : reach (any_lstep visit) (linit st0 threads tasks) y -> exists R owns pend, loop_inv y R owns pend.
Proof using whole0 tasks_once tasks_n tasks_all threads_alone threads_pos visit_safe.
  induction 1 as [|y y' _ IH St]; [eauto using inv_init|]. destruct IH as (R & owns & pend & I). exact (inv_step I St).
Qed.

(** What holds when the process dies. *)
Theorem loop_halted y st' : reach (any_lstep visit) (linit st0 threads tasks) y -> cut_short (l_workers y) (l_mem y) st' ->
  exists R, (forall x, In x R -> valid x /\ to_remove x = true) /\
    ((whole R (fst (l_mem y)) /\ forall k, st' k = fst (l_mem y) k) \/
     exists x, valid x /\ to_remove x = true /\ (whole R (fst (l_mem y)) \/ torn R x (fst (l_mem y))) /\
       forall k, k <> keyof x -> st' k = fst (l_mem y) k).
Proof using whole0 tasks_once tasks_n tasks_all threads_alone threads_pos visit_safe.
  intros Hr Hc. destruct (inv_reach Hr) as (R & owns & pend & I).
  assert (Out : forall t k f, nth_error (l_workers y) t = Some (Some (k, LAct f)) -> l_mutex y <> Some t -> fst (f (l_mem y)) = l_mem y).
  { intros t k f W Mu. destruct (nth_error owns t) as [own|] eqn:O.
    2:{ apply nth_error_None in O. rewrite (li_len I) in O. apply nth_error_None in O. congruence. }
    pose proof (li_run I W O Mu) as S. destruct (safe_norm S) as (pre & own' & -> & F & S' & Hh).
    destruct (crit_world I O (ex_intro _ k (ex_intro _ _ W)) Mu) as (R' & Ap & Se).
    destruct (Hh R' (l_mem y)) as [E _]; [|exact Se|exact E]. intros z Hz. apply Ap. apply in_or_app. auto. }
  assert (Same : forall (a b : bytes) i, Some a = Some (a ++ b) -> Some (a ++ firstn i b) = Some a).
  { intros a b i E. injection E as E. assert (b = []) as ->. { apply (app_inv_head a). now rewrite app_nil_r. }
    now rewrite firstn_nil, app_nil_r. }
  pose proof (li_state I) as St. destruct (l_mutex y) as [h|] eqn:Em.
  - destruct St as (x & b & own & k & p & -> & W & O & Cr & Wo).
    assert (Vx : valid x /\ to_remove x = true).
    { split; [apply (li_valid I)|apply (li_removed I)]; apply in_or_app; [right; apply in_or_app; right; apply in_or_app; left; now left|left; now left]. }
    assert (Keys : forall key, key <> keyof x -> st' key = fst (l_mem y) key).
    { intros key Nk. destruct (Hc key) as [E|(k' & f & a & bb & i & Hin & Ea & Eb & E)]; [exact E|].
      apply In_nth_error in Hin. destruct Hin as [t Ht]. rewrite E, Ea. apply Same.
      destruct (Nat.eq_dec t h) as [->|Ne].
      - rewrite W in Ht. injection Ht as -> ->. inversion Cr; subst. rewrite <- Eb. match goal with Hk : forall key, _ -> _ |- _ => rewrite Hk by exact Nk end. now rewrite Ea.
      - rewrite <- Eb. rewrite (Out t k' f Ht) by congruence. now rewrite Ea. }
    destruct b; cbn in Wo.
    + exists (x :: R). split.
      * intros z [<-|Hz]; [exact Vx|]. split; [apply (li_valid I)|apply (li_removed I)]; repeat (apply in_or_app; right); exact Hz.
      * right. exists x. split; [apply Vx|]. split; [apply Vx|]. auto.
    + exists R. split.
      * intros z Hz. split; [apply (li_valid I)|apply (li_removed I)]; repeat (apply in_or_app; right); exact Hz.
      * right. exists x. split; [apply Vx|]. split; [apply Vx|]. auto.
  - destruct St as [-> Wh]. exists R. split.
    + intros z Hz. split; [apply (li_valid I)|apply (li_removed I)]; repeat (apply in_or_app; right); exact Hz.
    + left. split; [exact Wh|]. intros key. destruct (Hc key) as [E|(k' & f & a & bb & i & Hin & Ea & Eb & E)]; [exact E|].
      apply In_nth_error in Hin. destruct Hin as [t Ht]. rewrite E, Ea. apply Same. rewrite <- Eb. rewrite (Out t k' f Ht) by congruence. now rewrite Ea.
Qed.

(** What holds when the loop returns. *)
Theorem loop_final y : reach (any_lstep visit) (linit st0 threads tasks) y -> lfinal y ->
  (lresult n y = Ok tt \/ alone = false /\ lresult n y = Throw ERuntime) /\
  exists R, whole R (fst (l_mem y)) /\ NoDup R /\ (forall x, In x R -> valid x /\ to_remove x = true) /\
    (lresult n y = Ok tt -> forall x, valid x -> to_remove x = true -> In x R).
Proof using whole0 tasks_once tasks_n tasks_all threads_alone threads_pos visit_safe.
  intros Hr [Fq Fw]. destruct (inv_reach Hr) as (R & owns & pend & I).
  assert (Em : l_mutex y = None /\ pend = [] /\ whole R (fst (l_mem y))).
  { pose proof (li_state I) as St. destruct (l_mutex y) as [h|]; [|destruct St; auto].
    destruct St as (x & b & o & k & p & _ & H & _). apply nth_error_In in H. rewrite Forall_forall in Fw. apply Fw in H. discriminate. }
  destruct Em as (Em & -> & Wh).
  assert (Co : concat owns = []).
  { assert (A : forall o, In o owns -> o = []).
    { intros o Ho. apply In_nth_error in Ho. destruct Ho as [t Ho].
      assert (Lt : (t < length (l_workers y))%nat) by (rewrite <- (li_len I); apply nth_error_Some; congruence).
      destruct (nth_error (l_workers y) t) as [v|] eqn:E; [|apply nth_error_None in E; lia].
      assert (v = None) as -> by (rewrite Forall_forall in Fw; apply Fw; eapply nth_error_In; eauto).
      apply (li_idle I) in E. congruence. }
    clear - A. induction owns as [|o owns IH]; cbn; [reflexivity|]. rewrite (A o) by (now left). cbn. apply IH. intros o' H. apply A. now right. }
  pose proof (li_nodup I) as Nd. pose proof (li_valid I) as Va. pose proof (li_cover I) as Cv.
  rewrite Fq, Co in Nd, Va, Cv. cbn in Nd, Va, Cv.
  unfold lresult. pose proof (fold_result (l_futures y) (seq 0 n)) as Fr.
  set (e := fold_left _ _ _) in *. clearbody e.
  split.
  - destruct e as [e|]; cbn; [|now left]. destruct Fr as (k & _ & Hk). destruct (li_futures I Hk) as [_ [H|[A H]]]; [discriminate|]. right. split; congruence.
  - exists R. split; [exact Wh|]. split; [exact Nd|]. split.
    + intros x Hx. split; [now apply Va|]. now apply (li_removed I).
    + destruct e as [e|]; cbn; [discriminate|]. intros _. apply Cv. intros k o Hk. destruct (li_futures I Hk) as [Kn [H|[A H]]]; [exact H|].
      subst o. destruct (Fr k ERuntime); [apply in_seq; lia|exact Hk].
Qed.

(** The loop is never stuck. *)
Theorem loop_progress y : reach (any_lstep visit) (linit st0 threads tasks) y ->
  lfinal y \/ exists y', any_lstep visit y y'.
Proof using whole0 tasks_once tasks_n tasks_all threads_alone threads_pos visit_safe.
  intros Hr. assert (Lw : length (l_workers y) = threads).
  { clear - Hr. induction Hr as [|y y' _ IH [t St]]; [apply repeat_length|]. rewrite <- IH. destruct St; cbn; now rewrite ?set_nth_length. }
  destruct (inv_reach Hr) as (R & owns & pend & I).
  pose proof (li_state I) as St. destruct (l_mutex y) as [h|] eqn:Em.
  { right. destruct St as (x & b & o & k & p & _ & W & _ & Cr & _). inversion Cr; subst.
    - eexists. exists h. eapply l_act; eauto.
    - eexists. exists h. eapply l_unlock; eauto. }
  assert (D : Forall (fun w => w = None) (l_workers y) \/ exists t k p, nth_error (l_workers y) t = Some (Some (k, p))).
  { clear. induction (l_workers y) as [|[[k p]|] l IH]; [left; constructor|right; exists 0%nat, k, p; reflexivity|].
    destruct IH as [IH|(t & k & p & IH)]; [left; now constructor|]. right. exists (S t), k, p. exact IH. }
  destruct D as [D|(t & k & p & W)].
  - destruct (l_queue y) as [|[k b] q] eqn:Eq; [left; split; assumption|]. right.
    destruct (l_workers y) as [|w ws] eqn:Ew; [cbn in Lw; lia|]. inversion D; subst.
    eexists. exists 0%nat. eapply l_take; [now rewrite Ew|exact Eq].
  - right. destruct (nth_error owns t) as [own|] eqn:O.
    2:{ apply nth_error_None in O. rewrite (li_len I) in O. apply nth_error_None in O. congruence. }
    destruct (safe_norm (li_run I W O ltac:(congruence))) as (pre & own' & _ & _ & _ & Hh).
    destruct p as [o|f|p|p]; cbn in Hh.
    + eexists. exists t. eapply l_finish; [exact W|]. destruct o; congruence.
    + eexists. exists t. eapply l_act; eauto.
    + eexists. exists t. eapply l_lock; eauto.
    + destruct Hh.
Qed.
End Loop.

(** *** Every execution ends *)
Section Terminates.
Variable visit : nat -> lcode.
Lemma lcode_ind2 (P : lcode -> Prop) : (forall o, P (LRet o)) -> (forall f, (forall m, P (snd (f m))) -> P (LAct f)) ->
  (forall p, P p -> P (LLock p)) -> (forall p, P p -> P (LUnlock p)) -> forall p, P p.
Proof.
  intros H1 H2 H3 H4. fix IH 1. intros [o|f|p|p]; [apply H1|apply H2|apply H3, IH|apply H4, IH].
  intros m. destruct (f m) as [m' p]. apply IH.
Qed.
Inductive wsmaller : option (nat * lcode) -> option (nat * lcode) -> Prop :=
| ws_act k f m : wsmaller (Some (k, snd (f m))) (Some (k, LAct f))
| ws_lock k p : wsmaller (Some (k, p)) (Some (k, LLock p))
| ws_unlock k p : wsmaller (Some (k, p)) (Some (k, LUnlock p))
| ws_finish k o : wsmaller None (Some (k, LRet o)).
Lemma wsmaller_acc x : Acc wsmaller x.
Proof.
  assert (N : Acc wsmaller None) by (constructor; intros y H; inversion H).
  destruct x as [[k p]|]; [|exact N].
  induction p as [o|f IH|p IH|p IH] using lcode_ind2; constructor; intros y H; inversion H; subst; auto.
Qed.
Inductive wone : list (option (nat * lcode)) -> list (option (nat * lcode)) -> Prop :=
| wone_here x y l : wsmaller x y -> wone (x :: l) (y :: l)
| wone_later x l l' : wone l l' -> wone (x :: l) (x :: l').
Lemma wone_acc l : Acc wone l.
Proof.
  induction l as [|x l IH]; [constructor; intros y H; inversion H|].
  revert l IH. induction (wsmaller_acc x) as [x _ IHx]. intros l IH. induction IH as [l Hl IHl].
  constructor. intros z H. inversion H; subst.
  - apply IHx; [assumption|]. now constructor.
  - apply IHl. assumption.
Qed.
Lemma wone_set t l x y : nth_error l t = Some y -> wsmaller x y -> wone (set_nth t l x) l.
Proof.
  revert l. induction t as [|t IH]; intros [|z l] H Hs; cbn in *; try discriminate.
  - injection H as ->. now constructor.
  - constructor. now apply IH.
Qed.
Theorem loop_terminates (y : lsystem) : Acc (fun a b => any_lstep visit b a) y.
Proof.
  remember (l_queue y) as q eqn:Eq. revert y Eq. induction q as [|e q IHq]; intros y Eq;
  remember (l_workers y) as l eqn:E; revert y Eq E; induction (wone_acc l) as [l _ IH]; intros y Eq ->;
  constructor; intros y' [t H]; destruct H.
  all: try (apply (IH (l_workers (LSystem (l_mem y) (l_mutex y) (l_queue y) _ (l_futures y)))); [eapply wone_set; eauto; constructor|exact Eq|reflexivity]).
  all: try (eapply IH; [|exact Eq|reflexivity]; cbn [l_workers]; eapply wone_set; eauto; constructor).
  - congruence.
  - apply IHq. cbn. congruence.
Qed.
End Terminates.

(** *** Executing a schedule, for examples *)
Section Exec.
Variable visit : nat -> lcode.
Definition lexec_step (y : lsystem) (t : nat) : lsystem :=
  match nth_error (l_workers y) t with
  | Some None =>
      match l_queue y with
      | (k, b) :: q => LSystem (l_mem y) (l_mutex y) q (set_nth t (l_workers y) (Some (k, lbatch visit b))) (l_futures y)
      | [] => y
      end
  | Some (Some (k, LAct f)) =>
      LSystem (fst (f (l_mem y))) (l_mutex y) (l_queue y) (set_nth t (l_workers y) (Some (k, snd (f (l_mem y))))) (l_futures y)
  | Some (Some (k, LLock p)) =>
      match l_mutex y with
      | None => LSystem (l_mem y) (Some t) (l_queue y) (set_nth t (l_workers y) (Some (k, p))) (l_futures y)
      | Some _ => y
      end
  | Some (Some (k, LUnlock p)) => LSystem (l_mem y) None (l_queue y) (set_nth t (l_workers y) (Some (k, p))) (l_futures y)
  | Some (Some (k, LRet o)) =>
      match o with
      | UB => y
      | _ => LSystem (l_mem y) (l_mutex y) (l_queue y) (set_nth t (l_workers y) None) (fun j => if (j =? k)%nat then Some o else l_futures y j)
      end
  | None => y
  end.
Fixpoint lexec (y : lsystem) (sched : list nat) : lsystem :=
  match sched with [] => y | t :: r => lexec (lexec_step y t) r end.
Lemma lexec_step_ok y t : lexec_step y t = y \/ lstep visit y t (lexec_step y t).
Proof.
  unfold lexec_step. destruct (nth_error (l_workers y) t) as [[[k p]|]|] eqn:E; [| |auto].
  - destruct p as [o|f|p|p].
    + destruct o; [right..|auto]; now apply l_finish.
    + right. now apply l_act.
    + destruct (l_mutex y) eqn:M; [auto|]. right. now apply l_lock.
    + right. now apply l_unlock.
  - destruct (l_queue y) as [|[k b] q] eqn:Q; [auto|]. right. now apply l_take.
Qed.
Lemma lexec_reach sched : forall y0 y, reach (any_lstep visit) y0 y -> reach (any_lstep visit) y0 (lexec y sched).
Proof.
  induction sched as [|t r IH]; intros y0 y H; cbn; [exact H|]. apply IH.
  destruct (lexec_step_ok y t) as [->|St]; [exact H|]. eapply reach_step; [exact H|]. now exists t.
Qed.
End Exec.
