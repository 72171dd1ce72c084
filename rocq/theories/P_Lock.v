(** Lemmas for concurrent calls on one sharded dataset. *)
From Verif Require Import M_Base M_Text M_Key M_Blocking M_View M_Bytes M_Format M_Mode M_Shard M_Dataset M_Sharded
  M_Access M_Pool M_Parallel M_Lock S_Array S_Grid S_Bytes S_Text S_Format S_Shard S_Dataset S_Access S_Sharded S_Lock
  P_Base P_Pool P_Sharded P_ShardedApi P_ParWrite.
Import List ListNotations.
Local Open Scope list_scope.

(** Code in a thread against the call in the sequential model. *)
Definition ends_as (r : pmem * outcome (list cell)) (a : store * outcome unit) : Prop :=
  (forall k, fst (fst r) k = fst a k) /\ ended (snd r) = snd a.
Definition same_files (a b : store * outcome unit) : Prop :=
  (forall k, fst a k = fst b k) /\ snd a = snd b.

Lemma run_caught_snoc l (a : action unit) st :
  run_caught (l ++ [a]) st =
  (fst (a (fst (run_caught l st))), snd (run_caught l st) ++ [snd (a (fst (run_caught l st)))]).
Proof.
  revert st. induction l as [|b l IH]; intros st; cbn.
  - destruct (a st). reflexivity.
  - destruct (b st) as [s1 o]. cbn. rewrite IH. destruct (run_caught l s1) as [s2 os]. reflexivity.
Qed.

Lemma log_of_snoc C t t' (log : list (nat * C * outcome unit)) c o :
  log_of t (log ++ [(t', c, o)]) = if Nat.eqb t' t then log_of t log ++ [c] else log_of t log.
Proof.
  unfold log_of. rewrite filter_app, map_app. cbn. destruct (Nat.eqb t' t); cbn; [reflexivity|apply app_nil_r].
Qed.

(** ** Any calls under the mutex are executed as if one after the other *)
Section Serial.
Variables (C : Type) (code_of : C -> call_code) (act : C -> action unit).
Hypothesis ret_ok : forall c o, code_of c = Returns o -> forall st, act c st = (st, o).
Hypothesis lock_ok : forall c p, code_of c = Locked p -> forall m, ends_as (run p m) (act c (fst m)).
Hypothesis none_free : forall c p, code_of c <> Unlocked p.
Hypothesis act_ext : forall c st st', (forall k, st k = st' k) -> same_files (act c st) (act c st').
Variables (st0 : store) (calls : list (list C)).

Definition pending (s : tstate) : list C := match s with TIdle => [] | TWait c _ => [c] | TRun c _ _ => [c] end.
Definition is_run (s : @tstate C) : Prop := match s with TRun _ _ _ => True | _ => False end.

Definition replay (log : list (nat * C * outcome unit)) := run_caught (map act (log_calls log)) st0.

Record linv (y : system) : Prop := {
  li_len : length (y_threads y) = length calls;
  li_calls : forall t s rest cs, nth_error (y_threads y) t = Some (s, rest) -> nth_error calls t = Some cs ->
    log_of t (y_log y) ++ pending s ++ rest = cs;
  li_tids : Forall (fun e => (fst (fst e) < length calls)%nat) (y_log y);
  li_results : snd (replay (y_log y)) = log_results (y_log y);
  li_wait : forall t c p rest, nth_error (y_threads y) t = Some (TWait c p, rest) -> code_of c = Locked p;
  li_mem : match y_mutex y with
    | None => (forall k, fst (y_mem y) k = fst (replay (y_log y)) k) /\
              forall t s rest, nth_error (y_threads y) t = Some (s, rest) -> ~ is_run s
    | Some t => exists c p rest, nth_error (y_threads y) t = Some (TRun c true p, rest) /\
              ends_as (run p (y_mem y)) (act c (fst (replay (y_log y)))) /\
              forall t' s rest', t' <> t -> nth_error (y_threads y) t' = Some (s, rest') -> ~ is_run s
    end
}.

Lemma replay_snoc log t c o : replay (log ++ [(t, c, o)]) =
  (fst (act c (fst (replay log))), snd (replay log) ++ [snd (act c (fst (replay log)))]).
Proof. unfold replay, log_calls. rewrite map_app, map_app. cbn [map fst snd]. apply run_caught_snoc. Qed.

Lemma calls_kept y t s rest s' rest' (log' : list (nat * C * outcome unit)) :
  linv y -> nth_error (y_threads y) t = Some (s, rest) ->
  (forall t', t' <> t -> log_of t' log' = log_of t' (y_log y)) ->
  log_of t log' ++ pending s' ++ rest' = log_of t (y_log y) ++ pending s ++ rest ->
  forall t' s1 rest1 cs, nth_error (set_nth t (y_threads y) (s', rest')) t' = Some (s1, rest1) ->
    nth_error calls t' = Some cs -> log_of t' log' ++ pending s1 ++ rest1 = cs.
Proof.
  intros I Hn Ho He t' s1 rest1 cs H Hc. apply nth_error_set in H. destruct H as [(-> & E & _)|(Hne & H)].
  - injection E as -> ->. rewrite He. exact (li_calls I Hn Hc).
  - rewrite Ho by exact Hne. exact (li_calls I H Hc).
Qed.

Lemma linv_init : linv (system_init st0 calls).
Proof.
  split; cbn [system_init y_threads y_log y_mutex y_mem].
  - apply map_length.
  - intros t s rest cs H Hc. rewrite nth_error_map, Hc in H. injection H as <- <-. reflexivity.
  - constructor.
  - reflexivity.
  - intros t c p rest H. rewrite nth_error_map in H. destruct (nth_error calls t); discriminate.
  - split; [reflexivity|]. intros t s rest H. rewrite nth_error_map in H. destruct (nth_error calls t); [|discriminate].
    injection H as <- <-. cbn. tauto.
Qed.

Ltac other_log := intros t' Hne; rewrite log_of_snoc; match goal with |- context [Nat.eqb ?a ?b] => destruct (Nat.eqb_spec a b); [congruence|reflexivity] end.
Ltac this_log := rewrite log_of_snoc, Nat.eqb_refl, <- app_assoc; reflexivity.

Lemma linv_step y y' : linv y -> system_step code_of y y' -> linv y'.
Proof.
  intros I [t H].
  assert (TL : forall x, nth_error (y_threads y) t = Some x -> (t < length calls)%nat).
  { intros x Hx. rewrite <- (li_len I). now apply nth_error_lt in Hx. }
  destruct H as [c rest o Hn Hc|c rest p Hn Hc|c rest p Hn Hc|c rest p Hn Hm|c rest l f Hn|c rest l o Hn];
    try (now destruct (none_free Hc)).
  - (* returns at once *)
    pose proof (ret_ok Hc (fst (replay (y_log y)))) as E.
    split; cbn [y_threads y_log y_mutex y_mem].
    + rewrite set_nth_length. apply li_len, I.
    + apply (calls_kept I Hn); [other_log|this_log].
    + apply Forall_app. split; [apply I|]. constructor; [|constructor]. cbn. eauto.
    + rewrite replay_snoc, E. cbn [fst snd]. unfold log_results. rewrite map_app. cbn. now rewrite (li_results I).
    + intros t' c' p' rest' H. apply nth_error_set in H. destruct H as [(_ & E' & _)|(_ & H)]; [discriminate|exact (li_wait I H)].
    + pose proof (li_mem I) as L. rewrite replay_snoc, E. cbn [fst].
      destruct (y_mutex y) as [u|].
      * destruct L as (c1 & p1 & rest1 & L1 & L2 & L3). exists c1, p1, rest1.
        assert (u <> t) by (intros ->; congruence).
        split; [rewrite set_nth_other by congruence; exact L1|]. split; [exact L2|].
        intros t' s r' Ht H'. apply nth_error_set in H'. destruct H' as [(_ & E' & _)|(_ & H')]; [injection E' as -> ->; cbn; tauto|eapply L3; eauto].
      * destruct L as [L1 L2]. split; [exact L1|].
        intros t' s r' H'. apply nth_error_set in H'. destruct H' as [(_ & E' & _)|(_ & H')]; [injection E' as -> ->; cbn; tauto|eapply L2; eauto].
  - (* waits *)
    split; cbn [y_threads y_log y_mutex y_mem].
    + rewrite set_nth_length. apply li_len, I.
    + apply (calls_kept I Hn); [reflexivity|reflexivity].
    + apply I.
    + apply I.
    + intros t' c' p' rest' H. apply nth_error_set in H. destruct H as [(_ & E' & _)|(_ & H)]; [congruence|exact (li_wait I H)].
    + pose proof (li_mem I) as L. destruct (y_mutex y) as [u|].
      * destruct L as (c1 & p1 & rest1 & L1 & L2 & L3). exists c1, p1, rest1.
        assert (u <> t) by (intros ->; congruence).
        split; [rewrite set_nth_other by congruence; exact L1|]. split; [exact L2|].
        intros t' s r' Ht H'. apply nth_error_set in H'. destruct H' as [(_ & E' & _)|(_ & H')]; [injection E' as -> ->; cbn; tauto|eapply L3; eauto].
      * destruct L as [L1 L2]. split; [exact L1|].
        intros t' s r' H'. apply nth_error_set in H'. destruct H' as [(_ & E' & _)|(_ & H')]; [injection E' as -> ->; cbn; tauto|eapply L2; eauto].
  - (* locks *)
    pose proof (li_mem I) as L. rewrite Hm in L. destruct L as [L1 L2].
    split; cbn [y_threads y_log y_mutex y_mem].
    + rewrite set_nth_length. apply li_len, I.
    + apply (calls_kept I Hn); [reflexivity|reflexivity].
    + apply I.
    + apply I.
    + intros t' c' p' rest' H. apply nth_error_set in H. destruct H as [(_ & E' & _)|(_ & H)]; [congruence|exact (li_wait I H)].
    + exists c, p, rest. split; [apply set_nth_same; now apply nth_error_lt in Hn|]. split.
      * destruct (lock_ok (li_wait I Hn) (y_mem y)) as [A1 A2].
        destruct (act_ext c L1) as [B1 B2]. split; [intros k; now rewrite A1, B1|now rewrite A2].
      * intros t' s r' Ht H'. rewrite set_nth_other in H' by congruence. eapply L2; eauto.
  - (* access *)
    pose proof (li_mem I) as L. destruct (y_mutex y) as [u|] eqn:Em.
    2: { destruct L as [_ L]. exfalso. exact (L _ _ _ Hn Logic.I). }
    destruct L as (c1 & p1 & rest1 & L1 & L2 & L3).
    assert (u = t) by (destruct (Nat.eq_dec t u); [congruence|exfalso; exact (L3 _ _ _ n Hn Logic.I)]). subst u.
    rewrite Hn in L1. injection L1 as -> -> <- <-.
    split; cbn [y_threads y_log y_mutex y_mem].
    + rewrite set_nth_length. apply li_len, I.
    + apply (calls_kept I Hn); [reflexivity|reflexivity].
    + apply I.
    + apply I.
    + intros t' c' p' rest' H. apply nth_error_set in H. destruct H as [(_ & E' & _)|(_ & H)]; [congruence|exact (li_wait I H)].
    + exists c1, (snd (f (y_mem y))), rest. split; [apply set_nth_same; now apply nth_error_lt in Hn|]. split.
      * cbn [run] in L2. destruct (f (y_mem y)) as [m' p']. exact L2.
      * intros t' s r' Ht H'. rewrite set_nth_other in H' by congruence. eapply L3; eauto.
  - (* returns *)
    pose proof (li_mem I) as L. destruct (y_mutex y) as [u|] eqn:Em.
    2: { destruct L as [_ L]. exfalso. exact (L _ _ _ Hn Logic.I). }
    destruct L as (c1 & p1 & rest1 & L1 & L2 & L3).
    assert (u = t) by (destruct (Nat.eq_dec t u); [congruence|exfalso; exact (L3 _ _ _ n Hn Logic.I)]). subst u.
    rewrite Hn in L1. injection L1 as -> -> <- <-. destruct L2 as [M1 M2]. cbn [run fst snd] in M1, M2.
    split; cbn [y_threads y_log y_mutex y_mem].
    + rewrite set_nth_length. apply li_len, I.
    + apply (calls_kept I Hn); [other_log|this_log].
    + apply Forall_app. split; [apply I|]. constructor; [|constructor]. cbn. eauto.
    + rewrite replay_snoc. cbn [fst snd]. unfold log_results. rewrite map_app. cbn. now rewrite (li_results I), M2.
    + intros t' c' p' rest' H. apply nth_error_set in H. destruct H as [(_ & E' & _)|(_ & H)]; [discriminate|exact (li_wait I H)].
    + rewrite replay_snoc. cbn [fst]. split; [exact M1|].
      intros t' s r' H'. apply nth_error_set in H'. destruct H' as [(_ & E' & _)|(Hne & H')]; [injection E' as -> ->; cbn; tauto|eapply L3; eauto].
Qed.

Lemma linv_reach y : reach (system_step code_of) (system_init st0 calls) y -> linv y.
Proof. induction 1 as [|y1 y2 _ IH H]; [exact linv_init|exact (linv_step IH H)]. Qed.

Theorem serial y : reach (system_step code_of) (system_init st0 calls) y ->
  snd (replay (y_log y)) = log_results (y_log y) /\
  (forall t cs, nth_error calls t = Some cs -> exists rest, log_of t (y_log y) ++ rest = cs) /\
  (y_mutex y = None -> forall k, fst (y_mem y) k = fst (replay (y_log y)) k) /\
  (all_returned y -> y_mutex y = None /\ forall t cs, nth_error calls t = Some cs -> log_of t (y_log y) = cs).
Proof.
  intros Hr. pose proof (linv_reach Hr) as I. split; [apply I|]. split; [|split].
  - intros t cs Hc. destruct (nth_error (y_threads y) t) as [[s rest]|] eqn:E.
    + exists (pending s ++ rest). exact (li_calls I E Hc).
    + exfalso. apply nth_error_None in E. apply nth_error_lt in Hc. rewrite (li_len I) in E. lia.
  - intros E. pose proof (li_mem I) as L. rewrite E in L. apply L.
  - intros A. unfold all_returned in A. rewrite Forall_forall in A. split.
    + pose proof (li_mem I) as L. destruct (y_mutex y); [|reflexivity]. destruct L as (c & p & rest & L & _).
      apply nth_error_In, A in L. discriminate.
    + intros t cs Hc. destruct (nth_error (y_threads y) t) as [[s rest]|] eqn:E.
      * pose proof (li_calls I E Hc) as L. apply nth_error_In, A in E. injection E as -> ->. cbn in L. now rewrite app_nil_r in L.
      * exfalso. apply nth_error_None in E. apply nth_error_lt in Hc. rewrite (li_len I) in E. lia.
Qed.

(** No deadlock. *)
Theorem lock_progress y : reach (system_step code_of) (system_init st0 calls) y ->
  all_returned y \/ exists y', system_step code_of y y'.
Proof.
  intros Hr. pose proof (linv_reach Hr) as I.
  assert (D : all_returned y \/ exists t s rest, nth_error (y_threads y) t = Some (s, rest) /\ (s, rest) <> (TIdle, [])).
  { unfold all_returned. generalize (y_threads y) as l. induction l as [|[s rest] l IH]; [left; constructor|].
    assert (X : (s, rest) = (TIdle, []) \/ (s, rest) <> (TIdle, [])).
    { destruct s; try (right; congruence). destruct rest; [now left|right; congruence]. }
    destruct X as [->|X]; [|right; exists 0%nat, s, rest; auto].
    destruct IH as [IH|(t & s' & rest' & H & Hn)]; [left; now constructor|right; exists (S t), s', rest'; auto]. }
  destruct D as [D|(t & s & rest & Hn & Hne)]; [now left|right].
  destruct (y_mutex y) as [u|] eqn:Em.
  - pose proof (li_mem I) as L. rewrite Em in L. destruct L as (c & p & rest' & L & _).
    destruct p as [o|f]; [|eexists; exists u; eapply th_act; exact L].
    eexists. exists u. eapply th_end. exact L.
  - destruct s as [|c p|c l p].
    + destruct rest as [|c rest]; [congruence|]. destruct (code_of c) as [o|p|p] eqn:E.
      * eexists. exists t. eapply th_return; eauto.
      * eexists. exists t. eapply th_start; eauto.
      * eexists. exists t. eapply th_enter; eauto.
    + eexists. exists t. eapply th_lock; eauto.
    + pose proof (li_mem I) as L. rewrite Em in L. destruct L as [_ L]. exfalso. exact (L _ _ _ Hn Logic.I).
Qed.
End Serial.

(** Termination: every run ends. *)
Section Terminates.
Variables (C : Type) (code_of : C -> call_code).

(** Number of steps a thread still makes is finite: by the code it is in, then by the
    calls it has left. *)
Inductive smaller : tstate * list C -> tstate * list C -> Prop :=
| sm_return c rest : smaller (TIdle, rest) (TIdle, c :: rest)
| sm_start c rest p : smaller (TRun c false p, rest) (TIdle, c :: rest)
| sm_enter c rest p : smaller (TWait c p, rest) (TIdle, c :: rest)
| sm_lock c rest p : smaller (TRun c true p, rest) (TWait c p, rest)
| sm_act c rest l f m : smaller (TRun c l (snd (f m)), rest) (TRun c l (Act f), rest)
| sm_end c rest l o : smaller (TIdle, rest) (TRun c l (Ret o), rest).

Lemma smaller_acc x : Acc smaller x.
Proof.
  destruct x as [s rest]. revert s. induction rest as [|c rest IH].
  - assert (I0 : Acc smaller (TIdle, [])) by (constructor; intros y H; inversion H).
    assert (R : forall c l p, Acc smaller (TRun c l p, [])).
    { intros c l p. induction p as [o|f IHp] using prog_ind2; constructor; intros y H; inversion H; subst; auto. }
    intros [|c p|c l p]; auto. constructor. intros y H. inversion H; subst. apply R.
  - assert (I0 : Acc smaller (TIdle, c :: rest)) by (constructor; intros y H; inversion H; subst; apply IH).
    assert (R : forall c' l p, Acc smaller (TRun c' l p, c :: rest)).
    { intros c' l p. induction p as [o|f IHp] using prog_ind2; constructor; intros y H; inversion H; subst; auto. }
    intros [|c' p|c' l p]; auto. constructor. intros y H. inversion H; subst. apply R.
Qed.

(** One element of a list gets smaller. *)
Inductive one_smaller : list (tstate * list C) -> list (tstate * list C) -> Prop :=
| one_here x y l : smaller x y -> one_smaller (x :: l) (y :: l)
| one_later x l l' : one_smaller l l' -> one_smaller (x :: l) (x :: l').
Lemma one_smaller_acc l : Acc one_smaller l.
Proof.
  induction l as [|x l IH]; [constructor; intros y H; inversion H|].
  revert l IH. induction (smaller_acc x) as [x _ IHx]. intros l IH. induction IH as [l Hl IHl].
  constructor. intros z H. inversion H; subst.
  - apply IHx; [assumption|]. now constructor.
  - apply IHl. assumption.
Qed.
Lemma one_smaller_set t l x y : nth_error l t = Some y -> smaller x y -> one_smaller (set_nth t l x) l.
Proof.
  revert l. induction t as [|t IH]; intros [|z l] H Hs; cbn in *; try discriminate.
  - injection H as ->. now constructor.
  - constructor. now apply IH.
Qed.
Lemma step_smaller y y' : system_step code_of y y' -> one_smaller (y_threads y') (y_threads y).
Proof.
  intros [t H]. destruct H; cbn [y_threads]; eapply one_smaller_set; eauto; constructor.
Qed.
Theorem system_terminates y : Acc (fun a b => system_step code_of b a) y.
Proof.
  remember (y_threads y) as l eqn:E. revert y E. induction (one_smaller_acc l) as [l _ IH]. intros y ->.
  constructor. intros y' H. apply (IH (y_threads y')); [now apply step_smaller|reflexivity].
Qed.
End Terminates.

(** ** The calls of a sharded dataset *)
Section Sharded.
Variable sd : sharded.

Lemma read_blobs_ext st st' k : (forall x, st x = st' x) -> read_shard_blobs sd st k = read_shard_blobs sd st' k.
Proof. intros E. unfold read_shard_blobs, store_read. destruct (shard_handle sd k); cbn; [now rewrite E|reflexivity|reflexivity]. Qed.

Lemma write_blobs_ext k blobs st st' : (forall x, st x = st' x) ->
  same_files (write_shard_blobs sd k blobs st) (write_shard_blobs sd k blobs st').
Proof.
  intros E. unfold write_shard_blobs, store_erase, store_write, pure, sbind.
  destruct (negb _); [now split|]. destruct (shard_handle sd k); try now split.
  destruct (all_slots_empty blobs); [|destruct (_ && _ && _)]; split; try assumption; try reflexivity; cbn; intros x;
    unfold set_key; now rewrite E.
Qed.

Lemma inner_ext ids blob st st' : (forall x, st x = st' x) ->
  same_files (write_inner_blob sd ids blob st) (write_inner_blob sd ids blob st').
Proof.
  intros E. unfold write_inner_blob, sbind, pure, reading.
  destruct (shard_id ids (sd_cps sd)) as [k| |]; try now split.
  destruct (shard_slot ids (sd_cps sd)) as [sl| |]; try now split.
  rewrite (read_blobs_ext k E). destruct (read_shard_blobs sd st' k) as [bs| |]; try now split.
  destruct (setN bs sl _) as [bs'| |]; try now split. now apply write_blobs_ext.
Qed.

Lemma run_blobs_code k blobs m : ends_as (run (write_blobs_code sd k blobs (Ret (Ok []))) m) (write_shard_blobs sd k blobs (fst m)).
Proof.
  unfold write_blobs_code, write_shard_blobs, sbind, pure. destruct (negb _); [now split|].
  destruct (shard_handle sd k) as [h| |]; try now split. cbn [plet].
  destruct (all_slots_empty blobs); [now split|]. unfold write_code, store_write, pure.
  destruct (_ && _ && _); [now split|]. split; [|reflexivity]. cbn. intros x. unfold set_key. now destruct (String.eqb _ _).
Qed.

Lemma run_inner_code ids blob m : ends_as (run (inner_blob_code sd ids blob) m) (write_inner_blob sd ids blob (fst m)).
Proof.
  unfold inner_blob_code, write_inner_blob, sbind, pure, reading.
  destruct (shard_id ids (sd_cps sd)) as [k| |]; try now split. cbn [plet].
  destruct (shard_slot ids (sd_cps sd)) as [sl| |]; try now split. cbn [plet].
  destruct (shard_handle sd k) as [h| |] eqn:Eh; cbn [plet];
    try (unfold read_shard_blobs; rewrite Eh; now split).
  unfold pread. cbn [run].
  assert (ER : read_shard_blobs sd (only (fst m (ch_key h))) k = read_shard_blobs sd (fst m) k).
  { unfold read_shard_blobs. rewrite Eh. reflexivity. }
  rewrite ER. destruct (read_shard_blobs sd (fst m) k) as [bs| |]; try now split. cbn [plet].
  destruct (setN bs sl _) as [bs'| |]; try now split. cbn [plet]. apply run_blobs_code.
Qed.

Lemma write_chunk_split ids data vl st :
  sh_write_chunk sd ids data vl st =
  match (if negb (can_write (d_mode (sd_base sd))) then Throw EInvalidArgument
         else
           let! h := chunk_handle_of (sd_base sd) (d_chunks (sd_base sd)) ids in
           let! bl := d_blocking (sd_base sd) in
           if negb (check_block bl (ch_ids h)) then Throw ERuntime
           else if vl then Throw ERuntime
           else make_chunk_blob sd ids data) with
  | Ok blob => write_inner_blob sd ids blob st
  | Throw e => (st, Throw e)
  | UB => (st, UB)
  end.
Proof.
  unfold sh_write_chunk, sbind, pure. destruct (negb _); [reflexivity|].
  destruct (chunk_handle_of _ _ ids) as [h| |]; cbn [bind]; try reflexivity.
  destruct (d_blocking _) as [bl| |]; cbn [bind]; try reflexivity.
  destruct (negb _); [reflexivity|]. destruct vl; [reflexivity|].
  destruct (make_chunk_blob sd ids data); reflexivity.
Qed.

Lemma chunk_ret o r : chunk_call_code sd o = Returns r -> forall st, run_shard_op sd o st = (st, r).
Proof.
  destruct o as [c data|c data|c]; cbn [chunk_call_code run_shard_op]; unfold sh_write_chunk_code; intros H st;
    try rewrite write_chunk_split; try discriminate;
    (destruct (if negb _ then _ else _); [discriminate|injection H as <-; reflexivity|injection H as <-; reflexivity]).
Qed.
Lemma chunk_lock o p : chunk_call_code sd o = Locked p -> forall m, ends_as (run p m) (run_shard_op sd o (fst m)).
Proof.
  destruct o as [c data|c data|c]; cbn [chunk_call_code run_shard_op]; unfold sh_write_chunk_code, sh_remove_chunk_code, sh_remove_chunk; intros H m;
    try rewrite write_chunk_split;
    try (destruct (if negb _ then _ else _); try discriminate); injection H as <-; apply run_inner_code.
Qed.
Lemma chunk_free o p : chunk_call_code sd o <> Unlocked p.
Proof.
  destruct o as [c data|c data|c]; cbn [chunk_call_code]; unfold sh_write_chunk_code, sh_remove_chunk_code; try discriminate;
    (destruct (if negb _ then _ else _); discriminate).
Qed.
Lemma chunk_ext o st st' : (forall k, st k = st' k) -> same_files (run_shard_op sd o st) (run_shard_op sd o st').
Proof.
  intros E. destruct o as [c data|c data|c]; cbn [run_shard_op]; unfold sh_remove_chunk; rewrite ?write_chunk_split;
    try (destruct (if negb _ then _ else _); try now split); now apply inner_ext.
Qed.

(** Concurrent single chunk calls are executed as if one after the other. *)
Theorem chunk_calls_serial st0 calls y :
  reach (system_step (chunk_call_code sd)) (system_init st0 calls) y ->
  snd (run_caught (map (run_shard_op sd) (log_calls (y_log y))) st0) = log_results (y_log y) /\
  (forall t cs, nth_error calls t = Some cs -> exists rest, log_of t (y_log y) ++ rest = cs) /\
  (y_mutex y = None -> forall k, fst (y_mem y) k = fst (run_caught (map (run_shard_op sd) (log_calls (y_log y))) st0) k) /\
  (all_returned y -> y_mutex y = None /\ forall t cs, nth_error calls t = Some cs -> log_of t (y_log y) = cs).
Proof. exact (serial chunk_ret chunk_lock chunk_free chunk_ext (st0 := st0) (calls := calls) (y := y)). Qed.

Theorem chunk_calls_progress st0 calls y :
  reach (system_step (chunk_call_code sd)) (system_init st0 calls) y ->
  all_returned y \/ exists y', system_step (chunk_call_code sd) y y'.
Proof. exact (lock_progress chunk_ret chunk_lock chunk_free chunk_ext (st0 := st0) (calls := calls) (y := y)). Qed.
End Sharded.

(** ** No update is lost *)
Lemma run_shard_ops_app sd a b st : run_shard_ops sd (a ++ b) st =
  match run_shard_ops sd a st with (st1, Ok _) => run_shard_ops sd b st1 | (st1, Throw e) => (st1, Throw e) | (st1, UB) => (st1, UB) end.
Proof.
  unfold run_shard_ops. revert st. induction a as [|o a IH]; intros st; cbn [foldS app]; [reflexivity|].
  unfold sbind. destruct (run_shard_op sd o st) as [st1 [[]|e|]]; [apply IH|reflexivity|reflexivity].
Qed.
Lemma run_caught_ok sd ops : forall st st', run_shard_ops sd ops st = (st', Ok tt) ->
  run_caught (map (run_shard_op sd) ops) st = (st', map (fun _ => Ok tt) ops).
Proof.
  unfold run_shard_ops. generalize tt at 1 as u. induction ops as [|o ops IH]; intros u st st'; cbn [foldS map run_caught].
  - intros [= <-]. reflexivity.
  - unfold sbind. destruct (run_shard_op sd o st) as [st1 [[]|e|]]; try discriminate. intros H. now rewrite (IH _ _ _ H).
Qed.

Lemma last_result_log d t c (log : list (nat * chunk_op * outcome unit)) : forall init,
  (forall e, In e log -> fst (fst e) <> t -> op_chunk (snd (fst e)) <> c) ->
  last_result d (log_calls log) c init = last_result d (log_of t log) c init.
Proof.
  induction log as [|[[t' o] r] log IH]; intros init H; [reflexivity|]. unfold log_calls, log_of in *. cbn [map filter fst snd last_result].
  destruct (Nat.eqb_spec t' t) as [->|NE]; cbn [map fst snd last_result].
  - apply IH. intros e He. apply H. now right.
  - destruct (list_eq_dec N.eq_dec (op_chunk o) c) as [E|_]; [exfalso; apply (H (t', o, r)); [now left|exact NE|exact E]|].
    apply IH. intros e He. apply H. now right.
Qed.
Lemma last_result_app d a b c init : last_result d (a ++ b) c init = last_result d b c (last_result d a c init).
Proof. revert init. induction a as [|o a IH]; intros init; cbn; [reflexivity|apply IH]. Qed.

Lemma log_of_in C (e : nat * C * outcome unit) log : In e log -> In (snd (fst e)) (log_of (fst (fst e)) log).
Proof.
  intros H. unfold log_of. apply in_map_iff. exists e. split; [reflexivity|]. apply filter_In. split; [exact H|apply Nat.eqb_refl].
Qed.

Lemma read_shard_ext sd st st' c : (forall k, st k = st' k) -> read_shard sd st c = read_shard sd st' c.
Proof.
  intros E. unfold read_shard, store_read. destruct (shard_id c (sd_cps sd)) as [k| |]; cbn [bind]; try reflexivity.
  destruct (shard_handle sd k) as [h| |]; cbn [bind]; try reflexivity. now rewrite E.
Qed.

Theorem no_lost_update sd pre st00 st0 calls y : sharded_ok sd -> can_write (d_mode (sd_base sd)) = true ->
  Forall (fun o => op_ok (sd_base sd) o /\ fixed_op o) pre ->
  Forall (Forall (fun o => op_ok (sd_base sd) o /\ fixed_op o)) calls ->
  (forall c, valid_chunk (d_shape (sd_base sd)) (d_chunks (sd_base sd)) c -> st00 (shard_key sd c) = None) ->
  run_shard_ops sd pre st00 = (st0, Ok tt) ->
  reach (system_step (chunk_call_code sd)) (system_init st0 calls) y -> all_returned y ->
  (forall t c r, In (t, c, r) (y_log y) -> r = Ok tt) /\
  (forall t cs, nth_error calls t = Some cs -> log_of t (y_log y) = cs) /\
  (forall c, valid_chunk (d_shape (sd_base sd)) (d_chunks (sd_base sd)) c ->
     let r := last_result (sd_base sd) (pre ++ log_calls (y_log y)) c None in
     sh_chunk_exists sd (fst (y_mem y)) c = Ok (match r with None => false | Some _ => true end) /\
     (forall vl data, r = Some (vl, data) ->
        forall out, buffer_of (t_width (d_type (sd_base sd))) (prod (d_chunks (sd_base sd))) out ->
        vl = false /\ sh_read_chunk sd (fst (y_mem y)) c out = Ok (false, data)) /\
     (forall t cs, nth_error calls t = Some cs ->
        (forall t' cs' o, t' <> t -> nth_error calls t' = Some cs' -> In o cs' -> op_chunk o <> c) ->
        r = last_result (sd_base sd) (pre ++ cs) c None)).
Proof.
  intros sok Hw Hpre Hcalls He Hrun Hr Ha.
  destruct (chunk_calls_serial Hr) as (R & _ & Mem & Fin). destruct (Fin Ha) as [Hm HL]. specialize (Mem Hm).
  pose proof (linv_reach (@chunk_ret sd) (@chunk_lock sd) (@chunk_free sd) (@chunk_ext sd) Hr) as I.
  assert (IN : forall e, In e (y_log y) -> exists cs, nth_error calls (fst (fst e)) = Some cs /\ In (snd (fst e)) cs).
  { intros e H. pose proof (li_tids I) as T. rewrite Forall_forall in T. specialize (T e H).
    destruct (nth_error calls (fst (fst e))) as [cs|] eqn:E; [|apply nth_error_None in E; lia].
    exists cs. split; [reflexivity|]. rewrite <- (HL _ _ E). now apply log_of_in. }
  assert (OK : Forall (fun o => op_ok (sd_base sd) o /\ fixed_op o) (log_calls (y_log y))).
  { apply Forall_forall. intros o H. unfold log_calls in H. apply in_map_iff in H. destruct H as (e & <- & H).
    destruct (IN e H) as (cs & E & Hc). rewrite Forall_forall in Hcalls. apply nth_error_In, Hcalls in E.
    rewrite Forall_forall in E. now apply E. }
  destruct (@shard_chunk_map sd (pre ++ log_calls (y_log y)) st00 sok Hw) as (st' & E1 & E2 & _); [now apply Forall_app|exact He|].
  rewrite run_shard_ops_app, Hrun in E1. apply run_caught_ok in E1. rewrite E1 in R, Mem. cbn [fst snd] in R, Mem.
  split; [|split; [exact HL|]].
  { intros t c r H. apply (in_map snd) in H. cbn [snd] in H. fold (log_results (y_log y)) in H. rewrite <- R in H.
    apply in_map_iff in H. destruct H as (? & <- & _). reflexivity. }
  intros c Vc r. destruct (E2 c Vc) as [X1 X2]. split; [|split].
  - unfold sh_chunk_exists in *. rewrite (read_shard_ext sd c Mem). exact X1.
  - intros vl data Er out Ho. destruct (X2 vl data Er out Ho) as [-> X]. split; [reflexivity|].
    unfold sh_read_chunk, sh_read_raw_chunk in *. rewrite (read_shard_ext sd c Mem). exact X.
  - intros t cs Hc Hothers. unfold r. rewrite !last_result_app, <- (HL t cs Hc). apply last_result_log.
    intros e H NE. destruct (IN e H) as (cs' & E & Ho). exact (Hothers _ _ _ NE E Ho).
Qed.

(** ** Executing a schedule, for examples *)
Section Exec.
Variables (C : Type) (code_of : C -> call_code).
Definition exec_step (y : @system C) (t : nat) : option system :=
  match nth_error (y_threads y) t with
  | None => None
  | Some (TIdle, []) => None
  | Some (TIdle, c :: rest) =>
      Some (match code_of c with
            | Returns o => System (y_mem y) (y_mutex y) (set_nth t (y_threads y) (TIdle, rest)) (y_log y ++ [(t, c, o)])
            | Unlocked p => System (y_mem y) (y_mutex y) (set_nth t (y_threads y) (TRun c false p, rest)) (y_log y)
            | Locked p => System (y_mem y) (y_mutex y) (set_nth t (y_threads y) (TWait c p, rest)) (y_log y)
            end)
  | Some (TWait c p, rest) =>
      match y_mutex y with
      | None => Some (System (y_mem y) (Some t) (set_nth t (y_threads y) (TRun c true p, rest)) (y_log y))
      | Some _ => None
      end
  | Some (TRun c l (Act f), rest) =>
      let (m, p) := f (y_mem y) in Some (System m (y_mutex y) (set_nth t (y_threads y) (TRun c l p, rest)) (y_log y))
  | Some (TRun c l (Ret o), rest) =>
      Some (System (y_mem y) (if l then None else y_mutex y) (set_nth t (y_threads y) (TIdle, rest)) (y_log y ++ [(t, c, ended o)]))
  end.
Fixpoint exec (y : @system C) (sched : list nat) : option system :=
  match sched with
  | [] => Some y
  | t :: r => match exec_step y t with Some y' => exec y' r | None => None end
  end.
Lemma exec_step_ok y t y' : exec_step y t = Some y' -> thread_step code_of y t y'.
Proof.
  unfold exec_step. destruct (nth_error (y_threads y) t) as [[s rest]|] eqn:E; [|discriminate].
  destruct s as [|c p|c l p].
  - destruct rest as [|c rest]; [discriminate|]. intros [= <-]. destruct (code_of c) eqn:Ec.
    + eapply th_return; eauto.
    + eapply th_start; eauto.
    + eapply th_enter; eauto.
  - destruct (y_mutex y) eqn:Em; [discriminate|]. intros [= <-]. eapply th_lock; eauto.
  - destruct p as [o|f].
    + intros [= <-]. eapply th_end; eauto.
    + pose proof (th_act code_of E) as X. destruct (f (y_mem y)) as [m p]. intros [= <-]. exact X.
Qed.
Lemma exec_reach sched : forall y0 y y', reach (system_step code_of) y0 y -> exec y sched = Some y' -> reach (system_step code_of) y0 y'.
Proof.
  induction sched as [|t r IH]; intros y0 y y' H; cbn; [intros [= <-]; exact H|].
  destruct (exec_step y t) as [y1|] eqn:E; [|discriminate]. intros X. eapply IH; [|exact X].
  eapply reach_step; [exact H|]. exists t. now apply exec_step_ok.
Qed.
End Exec.
