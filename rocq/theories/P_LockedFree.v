(** Removal from sharded datasets never blocks, whatever the files contain. *)
From Verif Require Import M_Base M_Blocking M_Dataset M_Sharded M_Access M_Parallel M_Pool M_ForEach M_Functions M_Lock M_ShardRemove P_Base.
Import List ListNotations.
Local Open Scope list_scope.

(** Code that holds the mutex ([b]) or not and releases it before it ends. *)
Inductive balanced : bool -> lcode -> Prop :=
| bal_ret o : balanced false (LRet o)
| bal_act b f : (forall m, balanced b (snd (f m))) -> balanced b (LAct f)
| bal_lock p : balanced true p -> balanced false (LLock p)
| bal_unlock p : balanced false p -> balanced true (LUnlock p).

Lemma balanced_seq k : balanced false k -> forall b p, balanced b p -> balanced b (lseq p k).
Proof.
  intros K b p B. induction B as [o|b f B IH|p B IH|p B IH]; cbn [lseq].
  - destruct o; [exact K|constructor|constructor].
  - constructor. intros m. specialize (IH m). destruct (f m) as [m' p']. exact IH.
  - now constructor.
  - now constructor.
Qed.
Lemma balanced_lift {A} (o : outcome A) k : (forall a, balanced false (k a)) -> balanced false (llift o k).
Proof. intros H. destruct o; cbn; [apply H|constructor|constructor]. Qed.
Lemma balanced_read key k : (forall f, balanced false (k f)) -> balanced false (lread key k).
Proof. intros H. constructor. intros m. apply H. Qed.
Lemma balanced_guarded : forall p, balanced true (guarded p).
Proof.
  fix IH 1. intros [o|f]; cbn [guarded]; constructor; [constructor|].
  intros m. specialize (fun m' => IH (snd (f m'))). specialize (IH m). destruct (f m) as [m' p']. exact IH.
Qed.
Lemma balanced_remove sd c : balanced false (locked_remove sd c).
Proof. constructor. apply balanced_guarded. Qed.
Lemma balanced_trivial sd value c : balanced false (sh_trivial_visit sd value c).
Proof.
  apply balanced_lift. intros key. apply balanced_read. intros f1. apply balanced_lift. intros ex. destruct ex; [|constructor].
  cbn [negb]. apply balanced_lift. intros vl. destruct (prepare_read_buffer _ vl) as [size data]. apply balanced_read. intros f2.
  apply balanced_lift. intros r. destruct (trivial _ _ _); [apply balanced_remove|constructor].
Qed.
Lemma balanced_drop sd c : balanced false (sh_drop_visit sd c).
Proof.
  apply balanced_lift. intros key. apply balanced_read. intros f. apply balanced_lift. intros ex.
  destruct ex; [apply balanced_remove|constructor].
Qed.

(** A worker holds the mutex exactly while its code has to release it. *)
Record free_inv (y : lsystem) : Prop := {
  fi_run : forall t k p, nth_error (l_workers y) t = Some (Some (k, p)) ->
    balanced (match l_mutex y with Some h => (h =? t)%nat | None => false end) p;
  fi_held : forall h, l_mutex y = Some h -> exists k p, nth_error (l_workers y) h = Some (Some (k, p))
}.

Lemma nth_lt A (l : list A) n x : nth_error l n = Some x -> (n < length l)%nat.
Proof. intros H. apply nth_error_Some. congruence. Qed.
(** A step of worker [t] whose code was [w] and is [w'], with the mutex afterwards. *)
Lemma free_set y t w w' m mu q fut : free_inv y -> nth_error (l_workers y) t = Some w ->
  (forall k p, w' = Some (k, p) -> balanced (match mu with Some h => (h =? t)%nat | None => false end) p) ->
  (w' = None -> mu <> Some t) ->
  (forall h, h <> t -> (mu = Some h <-> l_mutex y = Some h)) ->
  free_inv (LSystem m mu q (set_nth t (l_workers y) w') fut).
Proof.
  intros [F1 F2] W B N M. pose proof (nth_lt W) as L. split; cbn [l_workers l_mutex].
  - intros t' k p W'. destruct (Nat.eq_dec t t') as [->|D].
    + rewrite set_nth_same in W' by exact L. injection W' as ->. exact (B k p eq_refl).
    + rewrite set_nth_other in W' by exact D. specialize (F1 t' k p W').
      destruct (M t' ltac:(congruence)) as [M1 M2].
      assert (E : (match mu with Some h => (h =? t')%nat | None => false end) = match l_mutex y with Some h => (h =? t')%nat | None => false end).
      { apply Bool.eq_iff_eq_true. split.
        - destruct mu as [h|]; [|discriminate]. intros E. apply Nat.eqb_eq in E. subst h. rewrite (M1 eq_refl). apply Nat.eqb_refl.
        - destruct (l_mutex y) as [h|]; [|discriminate]. intros E. apply Nat.eqb_eq in E. subst h. rewrite (M2 eq_refl). apply Nat.eqb_refl. }
      now rewrite E.
  - intros h E. destruct (Nat.eq_dec t h) as [->|D].
    + rewrite set_nth_same by exact L. destruct w' as [[k p]|]; [eauto|]. now destruct (N eq_refl).
    + rewrite set_nth_other by exact D. apply F2. apply M; congruence.
Qed.

Section Free.
Variable visit : nat -> lcode.
Hypothesis visit_balanced : forall i, balanced false (visit i).

Lemma batch_balanced b : balanced false (lbatch visit b).
Proof using visit_balanced. induction b as [|i b IH]; cbn; [constructor|]. apply balanced_seq; [exact IH|apply visit_balanced]. Qed.

Lemma free_step y y' : free_inv y -> any_lstep visit y y' -> free_inv y'.
Proof using visit_balanced.
  intros F [t St]. pose proof F as [F1 F2].
  destruct St as [k b q W Q|k f W|k p W M|k p W|k o W O].
  - eapply free_set; [exact F|exact W| |discriminate|reflexivity]. intros k' p' [= <- <-].
    destruct (l_mutex y) as [h|] eqn:E; [|apply batch_balanced]. destruct (Nat.eqb_spec h t) as [Eh|Dh]; [|apply batch_balanced]. subst h.
    destruct (F2 t eq_refl) as (k' & p' & W'). congruence.
  - eapply free_set; [exact F|exact W| |discriminate|reflexivity]. intros k' p' [= <- <-].
    specialize (F1 t k _ W). inversion F1; subst. auto.
  - eapply free_set; [exact F|exact W| |discriminate|].
    + intros k' p' [= <- <-]. rewrite Nat.eqb_refl. specialize (F1 t k _ W). inversion F1; subst. assumption.
    + intros h D. rewrite M. split; congruence.
  - assert (E : l_mutex y = Some t).
    { specialize (F1 t k _ W). destruct (l_mutex y) as [h|]; [|inversion F1]. destruct (Nat.eqb_spec h t) as [Eh|Dh]; [now rewrite Eh|inversion F1]. }
    eapply free_set; [exact F|exact W| |discriminate|].
    + intros k' p' [= <- <-]. specialize (F1 t k _ W). inversion F1; subst. assumption.
    + intros h D. rewrite E. split; congruence.
  - eapply free_set; [exact F|exact W|discriminate| |reflexivity]. intros _ E.
    specialize (F1 t k _ W). rewrite E, Nat.eqb_refl in F1. inversion F1.
Qed.

Lemma free_progress y : free_inv y -> (0 < length (l_workers y))%nat ->
  lfinal y \/ (exists y', any_lstep visit y y') \/ exists t k, nth_error (l_workers y) t = Some (Some (k, LRet UB)).
Proof.
  intros [F1 F2] Lw. destruct (l_mutex y) as [h|] eqn:Em.
  { right. left. destruct (F2 h eq_refl) as (k & p & W). specialize (F1 h k p W). rewrite Nat.eqb_refl in F1. inversion F1; subst.
    - eexists. exists h. eapply l_act; eauto.
    - eexists. exists h. eapply l_unlock; eauto. }
  assert (D : Forall (fun w => w = None) (l_workers y) \/ exists t k p, nth_error (l_workers y) t = Some (Some (k, p))).
  { clear. induction (l_workers y) as [|[[k p]|] l IH]; [left; constructor|right; exists 0%nat, k, p; reflexivity|].
    destruct IH as [IH|(t & k & p & IH)]; [left; now constructor|]. right. exists (S t), k, p. exact IH. }
  destruct D as [D|(t & k & p & W)].
  - destruct (l_queue y) as [|[k b] q] eqn:Eq; [left; split; assumption|]. right. left.
    destruct (l_workers y) as [|w ws] eqn:Ew; [cbn in Lw; lia|]. inversion D; subst.
    eexists. exists 0%nat. eapply l_take; [now rewrite Ew|exact Eq].
  - right. specialize (F1 t k p W). inversion F1; subst.
    + destruct o as [[]|e|]; [left|left|right; eauto]; eexists; exists t; (eapply l_finish; [exact W|discriminate]).
    + left. eexists. exists t. eapply l_act; eauto.
    + left. eexists. exists t. eapply l_lock; eauto.
Qed.
End Free.

(** parallel_for_each_chunk with a callback that releases the mutex. *)
Lemma shard_free sd threads est visit st y : (forall c, balanced false (visit c)) -> shard_loop sd threads est visit st y ->
  lfinal y \/ (exists y', shard_step sd visit y y') \/ exists t k, nth_error (l_workers y) t = Some (Some (k, LRet UB)).
Proof.
  intros B [bl Eb Hr].
  assert (V : forall i, balanced false (llift (id_to_coord (b_strides bl) (N.of_nat i)) visit)) by (intros i; apply balanced_lift; exact B).
  assert (I : free_inv y /\ (0 < length (l_workers y))%nat).
  { induction Hr as [|y y' Hr [I L] [bl' Eb' St]].
    - split; [split|].
      + cbn. intros t k p W. apply nth_error_In, repeat_spec in W. discriminate.
      + discriminate.
      + cbn. rewrite repeat_length. unfold loop_threads. destruct (threads <=? 1)%N eqn:E; [lia|]. apply N.leb_gt in E. lia.
    - assert (bl' = bl) as -> by congruence. split; [exact (free_step V I St)|].
      destruct St as [t St]. destruct St; cbn; now rewrite set_nth_length. }
  destruct I as [I L]. destruct (@free_progress (fun i => llift (id_to_coord (b_strides bl) (N.of_nat i)) visit) V y I L) as [H|[[y' H]|H]]; auto.
  right. left. exists y'. econstructor; eauto.
Qed.
