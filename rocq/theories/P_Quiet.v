(** Proofs about clients that cannot change a dataset. *)
From Verif Require Import M_Base M_Text M_Key M_Blocking M_View M_Bytes M_N5Header M_Format
  M_Mode M_Shard M_Dataset M_Sharded M_Access M_Pool M_Parallel M_Lock M_Clients
  S_Array S_Grid S_Bytes S_Text S_Format S_Shard S_Dataset S_Sharded S_Access S_Lock S_Clients S_Quiet
  P_Base P_Pool P_Access P_Clients.
From Coq Require Import Lia.
Import List ListNotations.
Local Open Scope list_scope.
Local Open Scope N_scope.

(** ** Code that changes no file *)
Inductive only_looks : code -> Prop :=
| ol_ret o : only_looks (Ret o)
| ol_act f : (forall m, fst (fst (f m)) = fst m) -> (forall m, only_looks (snd (f m))) -> only_looks (Act f).

(** ** Code that never returns normally *)
Inductive ends (P : outcome (list cell) -> Prop) : code -> Prop :=
| en_ret o : P o -> ends P (Ret o)
| en_act f : (forall m, ends P (snd (f m))) -> ends P (Act f).

Lemma looks_plet A (o : outcome A) k : (forall a, only_looks (k a)) -> only_looks (plet o k).
Proof. intros H. destruct o; cbn; [apply H|constructor|constructor]. Qed.
Lemma looks_pread key k : (forall f, only_looks (k f)) -> only_looks (pread key k).
Proof. intros H. constructor; intros m; cbn; auto. Qed.
Lemma looks_pout a v k : only_looks k -> only_looks (pout a v k).
Proof. intros H. constructor; intros m; cbn; auto. Qed.
Lemma looks_pcopy size src sv dv idx k : only_looks k -> only_looks (pcopy size src sv dv idx k).
Proof.
  intros H. induction idx as [|i r IH]; [exact H|]. cbn [pcopy]. apply looks_plet. intros v.
  destruct (_ <? _); [now apply looks_pout|constructor].
Qed.
Lemma looks_pfill size dv v idx k : only_looks k -> only_looks (pfill size dv v idx k).
Proof.
  intros H. induction idx as [|i r IH]; [exact H|]. cbn [pfill].
  destruct (_ <? _); [now apply looks_pout|constructor].
Qed.
Lemma looks_pbind p k : only_looks p -> (forall b, only_looks (k b)) -> only_looks (pbind p k).
Proof.
  intros H K. induction H as [o|f H1 H IH]; cbn [pbind]; [destruct o; [apply K|constructor|constructor]|].
  constructor; intros m; specialize (IH m); specialize (H1 m); destruct (f m) as [m' p']; cbn in *; auto.
Qed.
Lemma looks_foreach A (f : nat -> A -> list cell -> code) items : forall b,
  (forall t x b, only_looks (f t x b)) -> only_looks (foreach_sequential f items b).
Proof.
  unfold foreach_sequential. induction items as [|x r IH]; intros b H; cbn [batch_prog]; [constructor|].
  apply looks_pbind; [apply H|]. intros b'. now apply IH.
Qed.

Lemma looks_read d ov off out : only_looks (cb_code (read_call d ov off out)).
Proof.
  cbn [read_call cb_code]. apply looks_plet. intros reqs. apply looks_foreach. intros _ c b. unfold read_code.
  apply looks_plet. intros r. apply looks_plet. intros h. apply looks_pread. intros f. apply looks_plet. intros ex.
  destruct (negb ex); [apply looks_pfill; constructor|]. apply looks_pread. intros f2. apply looks_plet. intros db.
  apply looks_plet. intros e. apply looks_pcopy. constructor.
Qed.
Lemma looks_sh_read sd ov off out : only_looks (cb_code (sh_read_call sd ov off out)).
Proof.
  cbn [sh_read_call cb_code]. apply looks_plet. intros gs. apply looks_foreach. intros _ g b. unfold shard_read_unit_code.
  apply looks_plet. intros h. apply looks_pread. intros f. apply looks_plet. intros raw.
  revert b. induction (snd g) as [|c rest IH]; intros b; cbn [shard_read_code]; [constructor|].
  apply looks_plet. intros slot. apply looks_plet. intros r. apply looks_plet. intros [[b' [o nb]]|].
  - apply looks_plet. intros b2. apply looks_pcopy. apply IH.
  - apply looks_pfill. apply IH.
Qed.

Section ReadOnly.
  Variable d : dataset.
  Hypothesis RO : can_write (d_mode d) = false.

  Lemma looks_write_chunk c data k : only_looks (write_chunk_code d c data k).
  Proof using RO. unfold write_chunk_code. rewrite RO. constructor. Qed.
  Lemma looks_op o : only_looks (cb_code (plain_body d (KOp o))).
  Proof using RO.
    destruct o as [off n src|c data|c]; cbn [plain_body].
    - cbn [write_call no_output cb_code]. apply looks_plet. intros reqs. apply looks_foreach. intros _ c b. unfold write_unit_code.
      apply looks_plet. intros h. apply looks_pread. intros f1. apply looks_pread. intros f2. apply looks_plet. intros b'.
      apply looks_write_chunk.
    - apply looks_write_chunk.
    - cbn [remove_chunk_call no_output cb_code]. apply looks_plet. intros h. rewrite RO. constructor.
  Qed.
End ReadOnly.

Section ShardedReadOnly.
  Variable sd : sharded.
  Hypothesis RO : can_write (d_mode (sd_base sd)) = false.

  Lemma looks_inner ids blob : only_looks (inner_blob_code sd ids blob).
  Proof using RO.
    unfold inner_blob_code. apply looks_plet. intros coord. apply looks_plet. intros slot. apply looks_plet. intros h.
    apply looks_pread. intros f. apply looks_plet. intros bl. apply looks_plet. intros bl'.
    unfold write_blobs_code. rewrite RO. constructor.
  Qed.
  Lemma looks_sh_op o : only_looks (cb_code (sharded_body sd (KOp o))).
  Proof using RO.
    destruct o as [off n src|c data|c]; cbn [sharded_body array_call_code].
    - unfold sh_write_request_code. rewrite RO. cbn [negb].
      destruct (begin_request _ _ _); cbn [bind unguarded no_output cb_code]; constructor.
    - unfold sh_write_chunk_code. rewrite RO. cbn [negb unguarded no_output cb_code]. constructor.
    - cbn [sh_remove_chunk_code unguarded no_output cb_code]. apply looks_inner.
  Qed.
End ShardedReadOnly.

Lemma harmless_looks c : harmless c -> only_looks (cb_code (any_body c)).
Proof.
  destruct c as [[d|sd] c]; intros [H|(ov & off & out & H)]; cbn [fst snd base_of any_body] in *; unfold any_body; cbn [fst snd].
  - destruct c; [apply looks_read|now apply looks_op].
  - subst c. apply looks_read.
  - destruct c; [apply looks_sh_read|now apply looks_sh_op].
  - subst c. apply looks_sh_read.
Qed.

(** ** Leaving clients out *)
Lemma silenced_nth A (e : A) q l : forall i t,
  nth_error (silenced e q i l) t = if q (i + t)%nat then option_map (fun _ => e) (nth_error l t) else nth_error l t.
Proof.
  induction l as [|x r IH]; intros i [|t]; cbn [silenced nth_error option_map]; try (now destruct (q _)).
  - rewrite Nat.add_0_r. now destruct (q i).
  - rewrite IH. now replace (S i + t)%nat with (i + S t)%nat by lia.
Qed.
Lemma silenced_set A (e : A) q v l : forall i t,
  silenced e q i (set_nth t l v) = if q (i + t)%nat then silenced e q i l else set_nth t (silenced e q i l) v.
Proof.
  induction l as [|x r IH]; intros i [|t]; cbn [silenced set_nth]; try (now destruct (q _)).
  - rewrite Nat.add_0_r. now destruct (q i).
  - rewrite IH. replace (S i + t)%nat with (i + S t)%nat by lia. now destruct (q (i + S t)%nat).
Qed.
Lemma silenced_map A B (g : A -> B) (e : A) q l : forall i, map g (silenced e q i l) = silenced (g e) q i (map g l).
Proof. induction l as [|x r IH]; intros i; [reflexivity|]. cbn. rewrite IH. now destruct (q i). Qed.

Section Leave.
  Context {C : Type}.
  Variable body_of : C -> call_body.
  Variable quiet : nat -> bool.

  (** What a quiet client is doing and will do only looks at files. *)
  Definition calm (x : @kstate C * list C) : Prop :=
    Forall (fun c => only_looks (cb_code (body_of c))) (snd x) /\
    match fst x with KIdle => True | KRun _ _ p => only_looks p end.

  Definition left_out (y : @clients C) : @clients C :=
    Clients (k_files y) (silenced (KIdle, []) quiet 0 (k_clients y))
      (filter (fun e => negb (quiet (fst (fst e)))) (k_log y)).

  Lemma step_left_out y y' :
    (forall t x, quiet t = true -> nth_error (k_clients y) t = Some x -> calm x) -> clients_step body_of y y' ->
    (forall t x, quiet t = true -> nth_error (k_clients y') t = Some x -> calm x) /\
    (left_out y' = left_out y \/ clients_step body_of (left_out y) (left_out y')).
  Proof.
    intros CALM [t S].
    assert (KEEP : forall v, (quiet t = true -> calm v) -> forall u x, quiet u = true ->
              nth_error (set_nth t (k_clients y) v) u = Some x -> calm x).
    { intros v Hv u x Hu Hx. destruct (Nat.eq_dec t u) as [->|N].
      - assert (L : (u < length (k_clients y))%nat).
        { assert (X : nth_error (set_nth u (k_clients y) v) u <> None) by congruence.
          apply nth_error_Some in X. now rewrite set_nth_length in X. }
        rewrite set_nth_same in Hx by exact L. inversion Hx; subst x. now apply Hv.
      - rewrite set_nth_other in Hx by exact N. now apply (CALM u). }
    assert (NTH : forall x, quiet t = false -> nth_error (k_clients y) t = Some x ->
              nth_error (k_clients (left_out y)) t = Some x).
    { intros x Q H. cbn [left_out k_clients]. rewrite silenced_nth. cbn [Nat.add]. now rewrite Q. }
    destruct S as [c rest H|c rest out f H|c rest out o H].
    - split.
      + cbn [k_clients]. apply KEEP. intros Q. destruct (CALM t _ Q H) as [A _]. cbn in A. inversion A; subst. now split.
      + unfold left_out at 1 4; cbn [k_files k_clients k_log]. rewrite silenced_set. cbn [Nat.add]. destruct (quiet t) eqn:Q; [now left|].
        right. exists t. exact (kl_start body_of (NTH _ Logic.eq_refl H)).
    - split.
      + cbn [k_clients]. apply KEEP. intros Q. destruct (CALM t _ Q H) as [A B]. cbn in A, B.
        inversion B as [|g G1 G]; subst. split; [exact A|]. cbn. now apply G.
      + unfold left_out at 1 4; cbn [k_files k_clients k_log]. rewrite silenced_set. cbn [Nat.add]. destruct (quiet t) eqn:Q.
        * left. destruct (CALM t _ Q H) as [_ B]. cbn in B. inversion B as [|g G1 G]; subst.
          assert (E := G1 (k_files y, out)). cbn [fst] in E. now rewrite E.
        * right. exists t. exact (kl_act body_of (NTH _ Logic.eq_refl H)).
    - split.
      + cbn [k_clients]. apply KEEP. intros Q. destruct (CALM t _ Q H) as [A _]. now split.
      + unfold left_out at 1 4; cbn [k_files k_clients k_log]. rewrite silenced_set, filter_app. cbn [Nat.add filter fst negb].
        destruct (quiet t) eqn:Q.
        * left. cbn [negb]. now rewrite app_nil_r.
        * right. cbn [negb]. exists t. exact (kl_end body_of (NTH _ Logic.eq_refl H)).
  Qed.

  Theorem leave_out st calls y :
    (forall t cs, quiet t = true -> nth_error calls t = Some cs -> Forall (fun c => only_looks (cb_code (body_of c))) cs) ->
    reach (clients_step body_of) (clients_init st calls) y ->
    reach (clients_step body_of) (clients_init st (silenced [] quiet 0 calls)) (left_out y).
  Proof.
    intros Q R.
    enough ((forall t x, quiet t = true -> nth_error (k_clients y) t = Some x -> calm x) /\
            reach (clients_step body_of) (clients_init st (silenced [] quiet 0 calls)) (left_out y)) by tauto.
    induction R as [|y y' R [IH1 IH2] S].
    - split.
      + intros t x Qt H. cbn [clients_init k_clients] in H. rewrite nth_error_map in H.
        destruct (nth_error calls t) as [cs|] eqn:E; [|discriminate H]. cbn in H. inversion H; subst x.
        split; [|exact Logic.I]. cbn. now apply (Q t).
      + assert (X : left_out (clients_init st calls) = clients_init st (silenced [] quiet 0 calls)).
        { unfold left_out, clients_init. cbn [k_files k_clients k_log filter]. f_equal. symmetry.
          exact (silenced_map (fun l => (@KIdle C, l)) [] quiet calls 0). }
        rewrite X. apply reach_refl.
    - destruct (step_left_out IH1 S) as [I1 [E|S']]; (split; [exact I1|]); [now rewrite E|eapply reach_step; eassumption].
  Qed.

  (** What code always ends with is what the log shows. *)
  Theorem log_ends (P : C -> outcome (list cell) -> Prop) st calls y :
    (forall c size o r, P c r -> P c (answer size o r)) ->
    reach (clients_step body_of) (clients_init st calls) y ->
    (forall t cs c, nth_error calls t = Some cs -> In c cs -> ends (P c) (cb_code (body_of c))) ->
    forall t c r, In (t, c, r) (k_log y) -> P c r.
  Proof.
    intros HA R H.
    enough ((forall t x, nth_error (k_clients y) t = Some x ->
               (forall c, In c (snd x) -> ends (P c) (cb_code (body_of c))) /\
               match fst x with KIdle => True | KRun c _ p => ends (P c) p end) /\
            (forall t c r, In (t, c, r) (k_log y) -> P c r)) by tauto.
    induction R as [|y y' R [IH1 IH2] [t S]].
    - split; [|intros ? ? ? []]. intros t x E. cbn [clients_init k_clients] in E. rewrite nth_error_map in E.
      destruct (nth_error calls t) as [cs|] eqn:E'; [|discriminate E]. cbn in E. inversion E; subst x. cbn.
      split; [|exact Logic.I]. intros c I. now apply (H t cs).
    - assert (KEEP : forall v, ((forall c, In c (snd v) -> ends (P c) (cb_code (body_of c))) /\
                 match fst v with KIdle => True | KRun c _ p => ends (P c) p end) ->
               forall u x, nth_error (set_nth t (k_clients y) v) u = Some x ->
                 (forall c, In c (snd x) -> ends (P c) (cb_code (body_of c))) /\
                 match fst x with KIdle => True | KRun c _ p => ends (P c) p end).
      { intros v Hv u x Hx. destruct (Nat.eq_dec t u) as [->|N].
        - assert (X : nth_error (set_nth u (k_clients y) v) u <> None) by congruence.
          apply nth_error_Some in X. rewrite set_nth_length in X. rewrite set_nth_same in Hx by exact X.
          inversion Hx; subst x. exact Hv.
        - rewrite set_nth_other in Hx by exact N. now apply (IH1 u). }
      destruct S as [c rest E|c rest out f E|c rest out o E]; destruct (IH1 _ _ E) as [A B]; cbn [fst snd] in A, B; cbn [k_clients k_log].
      + split; [|exact IH2]. apply KEEP. cbn [fst snd]. split; [intros c' I; apply A; now right|apply A; now left].
      + split; [|exact IH2]. apply KEEP. cbn [fst snd]. split; [exact A|]. inversion B as [|g G]; subst. apply G.
      + split; [apply KEEP; cbn [fst snd]; now split|]. intros u c' r I. apply in_app_or in I. destruct I as [I|[I|[]]]; [now apply (IH2 u)|].
        inversion I; subst. inversion B; subst. now apply HA.
  Qed.
End Leave.

(** ** Refused calls *)
Definition not_ok (r : outcome (list cell)) : Prop := match r with Ok _ => False | _ => True end.

Lemma ends_weaken (P Q : outcome (list cell) -> Prop) p : (forall o, P o -> Q o) -> ends P p -> ends Q p.
Proof. intros H E. induction E as [o X|f X IH]; constructor; auto. Qed.
Lemma fails_plet A (o : outcome A) k : (forall a, ends not_ok (k a)) -> ends not_ok (plet o k).
Proof. intros H. destruct o; cbn; [apply H|constructor; exact Logic.I|constructor; exact Logic.I]. Qed.
Lemma fails_pread key k : (forall f, ends not_ok (k f)) -> ends not_ok (pread key k).
Proof. intros H. constructor. intros m. apply H. Qed.
Lemma fails_pbind p k : ends not_ok p -> ends not_ok (pbind p k).
Proof.
  intros H. induction H as [o X|f X IH]; cbn [pbind]; [destruct o; [destruct X|constructor; exact X|constructor; exact X]|].
  constructor. intros m. specialize (IH m). now destruct (f m).
Qed.

Lemma write_fails d off n src : dataset_ok d -> can_write (d_mode d) = false -> region_ok d off n ->
  ends not_ok (cb_code (plain_body d (KOp (AWrite off n src)))).
Proof.
  intros O RO R. cbn [plain_body write_call no_output cb_code].
  destruct (begin_request_ok O R) as (l & E & _ & NE & _). rewrite E. cbn [plet].
  destruct l as [|c l]; [congruence|]. unfold foreach_sequential. cbn [batch_prog]. apply fails_pbind.
  unfold write_unit_code. apply fails_plet. intros h. apply fails_pread. intros f1. apply fails_pread. intros f2.
  apply fails_plet. intros b. unfold write_chunk_code. rewrite RO. now constructor.
Qed.

Theorem any_fails h o : any_ok h -> can_write (d_mode (base_of h)) = false -> array_op_ok (base_of h) o ->
  ends not_ok (cb_code (any_body (h, KOp o))).
Proof.
  intros O RO A. destruct h as [d|sd]; unfold any_body; cbn [fst snd base_of any_ok] in *.
  - destruct o as [off n src|c data|c].
    + apply write_fails; try assumption. apply A.
    + cbn [plain_body write_chunk_call no_output cb_code]. unfold write_chunk_code. rewrite RO. now constructor.
    + cbn [plain_body remove_chunk_call no_output cb_code]. apply fails_plet. intros h. rewrite RO. now constructor.
  - cbn [sharded_body]. destruct o as [off n src|c data|c]; cbn [array_call_code].
    + unfold sh_write_request_code. rewrite RO. cbn [negb].
      destruct (begin_request _ _ _); cbn [bind unguarded no_output cb_code]; now constructor.
    + unfold sh_write_chunk_code. rewrite RO. cbn [negb unguarded no_output cb_code]. now constructor.
    + cbn [sh_remove_chunk_code unguarded no_output cb_code]. unfold inner_blob_code.
      apply fails_plet. intros coord. apply fails_plet. intros slot. apply fails_plet. intros h.
      apply fails_pread. intros f. apply fails_plet. intros bl. apply fails_plet. intros bl'.
      unfold write_blobs_code. rewrite RO. now constructor.
Qed.

Lemma chunk_refused h c data : can_write (d_mode (base_of h)) = false ->
  ends (fun r => r = Throw EInvalidArgument) (cb_code (any_body (h, KOp (AChunk c data)))).
Proof.
  intros RO. destruct h as [d|sd]; unfold any_body; cbn [fst snd base_of] in *.
  - cbn [plain_body write_chunk_call no_output cb_code]. unfold write_chunk_code. rewrite RO. now constructor.
  - cbn [sharded_body array_call_code]. unfold sh_write_chunk_code. rewrite RO. cbn [negb unguarded no_output cb_code]. now constructor.
Qed.
