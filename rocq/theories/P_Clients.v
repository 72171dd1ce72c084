(** Lemmas for clients whose calls use different files. *)
From Coq Require Import String.
From Verif Require Import M_Base M_Text M_Key M_Blocking M_View M_Bytes M_Format M_Mode M_Shard M_Dataset M_Sharded
  M_Access M_Pool M_Parallel M_Lock M_Clients S_Array S_Grid S_Bytes S_Dataset S_Access S_Sharded S_Pool S_Lock S_Clients
  P_Base P_Pool P_Parallel P_Lock.
Import List ListNotations.
Local Open Scope list_scope.

Lemma calls_by_snoc C t t' (log : list (nat * C * outcome (list cell))) c o :
  calls_by t (log ++ [(t', c, o)]) = if Nat.eqb t' t then calls_by t log ++ [c] else calls_by t log.
Proof.
  unfold calls_by. rewrite filter_app, map_app. cbn. destruct (Nat.eqb t' t); cbn; [reflexivity|apply app_nil_r].
Qed.
Lemma answers_to_snoc C t t' (log : list (nat * C * outcome (list cell))) c o :
  answers_to t (log ++ [(t', c, o)]) = if Nat.eqb t' t then answers_to t log ++ [o] else answers_to t log.
Proof.
  unfold answers_to. rewrite filter_app, map_app. cbn. destruct (Nat.eqb t' t); cbn; [reflexivity|apply app_nil_r].
Qed.

Lemma answered_idle C (y : @clients C) t : all_answered y -> (t < List.length (k_clients y))%nat -> nth_error (k_clients y) t = Some (@KIdle C, []).
Proof.
  intros A H. destruct (nth_error (k_clients y) t) as [x|] eqn:E.
  - unfold all_answered in A. rewrite Forall_forall in A. apply nth_error_In in E. now rewrite (A _ E).
  - apply nth_error_None in E. lia.
Qed.

Section Generic.
Variables (C : Type) (body_of : C -> call_body).

(** One call executed without interruption, and a list of calls. *)
Definition call_alone (c : C) (st : store) : store * outcome (list cell) :=
  let b := body_of c in
  let r := run (cb_code b) (st, cb_out b) in
  (fst (fst r), answer (cb_size b) (snd (fst r)) (snd r)).
Fixpoint calls_alone (cs : list C) (st : store) : store * list (outcome (list cell)) :=
  match cs with
  | [] => (st, [])
  | c :: r => let (st1, o) := call_alone c st in let (st2, os) := calls_alone r st1 in (st2, o :: os)
  end.
Lemma calls_alone_snoc l c st : calls_alone (l ++ [c]) st =
  (fst (call_alone c (fst (calls_alone l st))), snd (calls_alone l st) ++ [snd (call_alone c (fst (calls_alone l st)))]).
Proof.
  revert st. induction l as [|x l IH]; intros st; cbn [app calls_alone].
  - cbn [fst snd app]. destruct (call_alone c st). reflexivity.
  - destruct (call_alone x st) as [s1 o]. rewrite IH. destruct (calls_alone l s1) as [s2 os]. reflexivity.
Qed.

(** The files a call may change and those it may look at. *)
Variables (wkeys rkeys : C -> list string) (good : C -> Prop).
Definition wlocs (c : C) (l : ploc) : Prop := match l with inl k => In k (wkeys c) | inr _ => True end.
Definition rlocs (c : C) (l : ploc) : Prop := match l with inl k => In k (rkeys c) | inr _ => False end.
Hypothesis body_conf : forall c, good c -> pconf (wlocs c) (rlocs c) (cb_code (body_of c)).

Variables (st0 : store) (calls : list (list C)).
Hypothesis all_good : Forall (Forall good) calls.
(** Files changed by clients other than [t]. *)
Definition foreign (t : nat) (k : string) : Prop :=
  exists t' cs c, t' <> t /\ nth_error calls t' = Some cs /\ In c cs /\ In k (wkeys c).
Hypothesis disjoint : forall t cs c k, nth_error calls t = Some cs -> In c cs ->
  In k (wkeys c) \/ In k (rkeys c) -> ~ foreign t k.

(** Two ends of one call that agree on its own files. *)
Definition like (t : nat) (r r' : pmem * outcome (list cell)) : Prop :=
  snd r = snd r' /\ (forall k, ~ foreign t k -> fst (fst r) k = fst (fst r') k) /\ (forall a, snd (fst r) a = snd (fst r') a).

Definition client_inv (files : store) (log : list (nat * C * outcome (list cell))) (t : nat) (cs : list C)
    (x : kstate * list C) : Prop :=
  let done := calls_by t log in
  let alone := calls_alone done st0 in
  answers_to t log = snd alone /\
  match fst x with
  | KIdle => cs = done ++ snd x /\ forall k, ~ foreign t k -> files k = fst alone k
  | KRun c out p => cs = done ++ c :: snd x /\ pconf (wlocs c) (rlocs c) p /\
      like t (run p (files, out)) (run (cb_code (body_of c)) (fst alone, cb_out (body_of c)))
  end.
Record kinv (y : clients) : Prop := {
  ki_len : List.length (k_clients y) = List.length calls;
  ki_client : forall t cs x, nth_error calls t = Some cs -> nth_error (k_clients y) t = Some x ->
    client_inv (k_files y) (k_log y) t cs x;
  ki_rest : forall k, (forall t cs c, nth_error calls t = Some cs -> In c cs -> ~ In k (wkeys c)) -> k_files y k = st0 k
}.

Lemma elements_ext n o o' : (forall a, o a = o' a) -> elements n o = elements n o'.
Proof. intros H. unfold elements. apply map_ext. intros i. apply H. Qed.

Lemma good_call t cs c : nth_error calls t = Some cs -> In c cs -> good c.
Proof.
  intros H Hi. apply nth_error_In in H. rewrite Forall_forall in all_good. specialize (all_good _ H).
  rewrite Forall_forall in all_good. auto.
Qed.

(** Files of other clients do not matter. *)
Lemma run_like t cs c p m m' : nth_error calls t = Some cs -> In c cs -> pconf (wlocs c) (rlocs c) p ->
  (forall k, ~ foreign t k -> fst m k = fst m' k) -> (forall a, snd m a = snd m' a) ->
  like t (run p m) (run p m').
Proof using body_conf disjoint.
  intros Hc Hi Hp Hk Ha.
  assert (A : agree pget (either (wlocs c) (rlocs c)) m m').
  { intros [k|a] [H|H]; cbn in *; try (f_equal; apply Ha); try destruct H;
      f_equal; apply Hk; eapply disjoint; eauto. }
  destruct (confined_run Hp A) as [E1 E2]. split; [exact E1|]. split.
  - intros k Hf. specialize (E2 (inl k)). cbn in E2. rewrite (Hk k Hf) in E2. specialize (E2 eq_refl). congruence.
  - intros a. specialize (E2 (inr a)). cbn in E2. rewrite (Ha a) in E2. specialize (E2 eq_refl). congruence.
Qed.

(** A step of another client. *)
Lemma other_step files files' log t cs x c0 t0 cs0 e : client_inv files log t cs x ->
  nth_error calls t = Some cs -> nth_error calls t0 = Some cs0 -> In c0 cs0 -> t0 <> t ->
  (forall k, ~ In k (wkeys c0) -> files' k = files k) ->
  (e = [] \/ exists o, e = [(t0, c0, o)]) -> client_inv files' (log ++ e) t cs x.
Proof using body_conf disjoint.
  intros [I1 I2] Hc H0 Hi0 Hn HF He.
  assert (L : calls_by t (log ++ e) = calls_by t log /\ answers_to t (log ++ e) = answers_to t log).
  { destruct He as [-> | [o ->]]; [now rewrite app_nil_r|].
    rewrite calls_by_snoc, answers_to_snoc. apply Nat.eqb_neq in Hn. now rewrite Hn. }
  destruct L as [L1 L2]. unfold client_inv. rewrite L1, L2. split; [exact I1|].
  assert (K : forall k, ~ foreign t k -> files' k = files k).
  { intros k Hf. apply HF. intros Hk. apply Hf. exists t0, cs0, c0. auto. }
  destruct x as [[|c out p] rest]; cbn [fst snd] in *.
  - destruct I2 as [E I2]. split; [exact E|]. intros k Hf. rewrite (K k Hf). auto.
  - destruct I2 as (E & P & R1 & R2 & R3). split; [exact E|]. split; [exact P|].
    assert (Hi : In c cs) by (rewrite E; apply in_elt).
    destruct (@run_like t cs c p (files', out) (files, out) Hc Hi P) as (S1 & S2 & S3); [exact K|reflexivity|].
    split; [congruence|]. split; [intros k Hf; rewrite S2, R2; auto|intros a; rewrite S3, R3; auto].
Qed.

Lemma kinv_init : kinv (clients_init st0 calls).
Proof.
  split; cbn.
  - apply map_length.
  - intros t cs x H H'. rewrite nth_error_map, H in H'. cbn in H'. injection H' as <-.
    split; cbn; auto.
  - auto.
Qed.

Lemma kinv_step y y' : kinv y -> clients_step body_of y y' -> kinv y'.
Proof using body_conf disjoint all_good.
  intros [I1 I2 I3] [t S].
  assert (T : exists x, nth_error (k_clients y) t = Some x) by (destruct S; eauto).
  destruct T as [x Hx].
  assert (HC : exists cs, nth_error calls t = Some cs).
  { destruct (nth_error calls t) eqn:E; [eauto|]. apply nth_error_None in E.
    apply nth_error_lt in Hx. lia. }
  destruct HC as [cs Hc]. pose proof (I2 _ _ _ Hc Hx) as I.
  assert (G : forall files' x' e c0, In c0 cs ->
    (forall k, ~ In k (wkeys c0) -> files' k = k_files y k) ->
    (e = [] \/ exists o, e = [(t, c0, o)]) ->
    client_inv files' (k_log y ++ e) t cs x' ->
    kinv (Clients files' (set_nth t (k_clients y) x') (k_log y ++ e))).
  { intros files' x' e c0 Hi HF He H'. split; cbn [k_files k_clients k_log].
    - rewrite set_nth_length. exact I1.
    - intros u cs' z Hu Hz. apply nth_error_set in Hz. destruct Hz as [(-> & -> & _)|[Hn Hz]].
      + assert (cs' = cs) by congruence. now subst.
      + apply (@other_step (k_files y) files' (k_log y) u cs' z c0 t cs e); auto.
    - intros k Hk. rewrite HF by eauto. auto. }
  destruct S as [c rest H|c rest out f H|c rest out o H]; rewrite H in Hx; injection Hx as <-.
  - destruct I as [A (E & F)]. cbn [fst snd] in *.
    assert (Hi : In c cs) by (rewrite E; apply in_elt).
    rewrite <- (app_nil_r (k_log y)). apply (G (k_files y) (KRun c (cb_out (body_of c)) (cb_code (body_of c)), rest) [] c); auto.
    rewrite app_nil_r. split; [exact A|]. cbn [fst snd]. split; [exact E|].
    assert (P := body_conf (good_call Hc Hi)). split; [exact P|].
    now apply (@run_like t cs c).
  - destruct I as [A (E & P & L)]. cbn [fst snd] in *.
    assert (Hi : In c cs) by (rewrite E; apply in_elt).
    inversion P as [|g P1 P2 P3 Eg]; subst g.
    rewrite <- (app_nil_r (k_log y)). apply (G _ _ [] c); auto.
    + intros k Hk. specialize (P2 (k_files y, out) (inl k) Hk). cbn in P2. congruence.
    + rewrite app_nil_r. split; [exact A|]. cbn [fst snd]. split; [exact E|]. split; [apply P3|].
      cbn [run] in L. destruct (f (k_files y, out)) as [[fs o'] p'] eqn:Ef. cbn [fst snd]. exact L.
  - destruct I as [A (E & P & (L1 & L2 & L3))]. cbn [fst snd run] in *.
    assert (Hi : In c cs) by (rewrite E; apply in_elt).
    apply (G _ _ [(t, c, answer (cb_size (body_of c)) out o)] c); eauto.
    split; rewrite calls_by_snoc, Nat.eqb_refl, calls_alone_snoc; cbn [fst snd].
    + rewrite answers_to_snoc, Nat.eqb_refl, A. do 2 f_equal. unfold call_alone. cbn [fst snd].
      rewrite <- L1. destruct o; cbn; try reflexivity. f_equal. now apply elements_ext.
    + split; [rewrite E, <- app_assoc; reflexivity|]. intros k Hf. unfold call_alone. cbn [fst snd]. now apply L2.
Qed.

Lemma kinv_reach y : reach (clients_step body_of) (clients_init st0 calls) y -> kinv y.
Proof using body_conf disjoint all_good. induction 1; [apply kinv_init|eapply kinv_step; eauto]. Qed.

(** Every client's answers are those it gets alone, and while it is between two calls
    so are the files that no other client changes. *)
Theorem isolated y t cs : reach (clients_step body_of) (clients_init st0 calls) y -> nth_error calls t = Some cs ->
  exists rest, cs = calls_by t (k_log y) ++ rest /\
    answers_to t (k_log y) = snd (calls_alone (calls_by t (k_log y)) st0) /\
    (forall x, nth_error (k_clients y) t = Some (KIdle, x) -> x = rest /\
       forall k, ~ foreign t k -> k_files y k = fst (calls_alone (calls_by t (k_log y)) st0) k).
Proof using body_conf disjoint all_good.
  intros R Hc. pose proof (kinv_reach R) as [I1 I2 _].
  assert (HX : exists x, nth_error (k_clients y) t = Some x).
  { destruct (nth_error (k_clients y) t) eqn:E; [eauto|]. apply nth_error_None in E. apply nth_error_lt in Hc. lia. }
  destruct HX as [x Hx]. destruct (I2 _ _ _ Hc Hx) as [A B]. destruct x as [[|c out p] rest]; cbn [fst snd] in B.
  - destruct B as [E B]. exists rest. split; [exact E|]. split; [exact A|]. intros x Hx'.
    rewrite Hx in Hx'. injection Hx' as <-. auto.
  - destruct B as [E _]. exists (c :: rest). split; [exact E|]. split; [exact A|]. intros x Hx'.
    rewrite Hx in Hx'. discriminate.
Qed.

Lemma some_writer k : (exists t cs c, nth_error calls t = Some cs /\ In c cs /\ In k (wkeys c)) \/
  (forall t cs c, nth_error calls t = Some cs -> In c cs -> ~ In k (wkeys c)).
Proof.
  clear. induction calls as [|cs l IH].
  - right. intros [|t] cs c H; discriminate.
  - assert (D : (exists c, In c cs /\ In k (wkeys c)) \/ (forall c, In c cs -> ~ In k (wkeys c))).
    { clear. induction cs as [|c cs IH]; [right; intros ? []|].
      destruct (in_dec string_dec k (wkeys c)) as [Hk|Hk]; [left; exists c; split; [now left|exact Hk]|].
      destruct IH as [(c' & H & H')|IH]; [left; exists c'; split; [now right|exact H']|].
      right. intros c' [<- |H]; auto. }
    destruct D as [(c & H & H')|D]; [left; exists 0%nat, cs, c; auto|].
    destruct IH as [(t & cs' & c & H & H' & H'')|IH]; [left; exists (S t), cs', c; auto|].
    right. intros [|t] cs' c H; [injection H as <-; apply D|apply (IH t cs' c H)].
Qed.

(** Two complete executions leave the same files and the same answers. *)
Theorem same_outcome y y' : reach (clients_step body_of) (clients_init st0 calls) y ->
  reach (clients_step body_of) (clients_init st0 calls) y' -> all_answered y -> all_answered y' ->
  (forall k, k_files y k = k_files y' k) /\ (forall t, calls_by t (k_log y) = calls_by t (k_log y') \/ nth_error calls t = None).
Proof using body_conf disjoint all_good.
  intros R R' A A'. pose proof (kinv_reach R) as [I1 I2 I3]. pose proof (kinv_reach R') as [I1' I2' I3'].
  assert (X : forall t cs, nth_error calls t = Some cs ->
    calls_by t (k_log y) = cs /\ calls_by t (k_log y') = cs /\ forall k, ~ foreign t k -> k_files y k = k_files y' k).
  { intros t cs Hc. pose proof (nth_error_lt Hc) as Hl.
    destruct (I2 _ _ _ Hc (@answered_idle C y t A ltac:(lia))) as [_ [E F]].
    destruct (I2' _ _ _ Hc (@answered_idle C y' t A' ltac:(lia))) as [_ [E' F']].
    cbn [fst snd] in *. rewrite app_nil_r in E, E'. split; [auto|]. split; [auto|].
    intros k Hf. rewrite (F k Hf), (F' k Hf), <- E, <- E'. reflexivity. }
  split.
  - intros k. destruct (some_writer k) as [(t & cs & c & H & H' & H'')|N].
    + apply (proj2 (proj2 (X t cs H))). eapply disjoint; eauto.
    + rewrite I3, I3' by exact N. reflexivity.
  - intros t. destruct (nth_error calls t) as [cs|] eqn:E; [left|now right].
    destruct (X t cs E) as (-> & -> & _). reflexivity.
Qed.
End Generic.

(** ** Executing calls one after the other *)
Section Order.
Variables (C : Type) (body_of : C -> call_body).
Notation step := (clients_step body_of).

Lemma reach_trans X (R : X -> X -> Prop) a b c : reach R a b -> reach R b c -> reach R a c.
Proof. intros H. induction 1; [exact H|eapply reach_step; eauto]. Qed.

Lemma set_set_nth A t (l : list A) x z : set_nth t (set_nth t l x) z = set_nth t l z.
Proof. revert l. induction t as [|t IH]; intros [|y l]; cbn; try reflexivity. f_equal. apply IH. Qed.
Lemma set_nth_get A t (l : list A) x y : nth_error l t = Some y -> nth_error (set_nth t l x) t = Some x.
Proof. revert l. induction t as [|t IH]; intros [|z l] H; cbn in *; try discriminate; [reflexivity|now apply IH]. Qed.

Lemma run_steps p : forall (y : @clients C) t c out rest, nth_error (k_clients y) t = Some (KRun c out p, rest) ->
  reach step y (Clients (fst (fst (run p (k_files y, out))))
    (set_nth t (k_clients y) (KRun c (snd (fst (run p (k_files y, out)))) (Ret (snd (run p (k_files y, out)))), rest))
    (k_log y)).
Proof.
  induction p as [o|f IH] using prog_ind2; intros y t c out rest H; cbn [run fst snd].
  - assert (E : set_nth t (k_clients y) (KRun c out (Ret o), rest) = k_clients y).
    { clear - H. revert H. generalize (k_clients y). intros l. revert t. induction l as [|x l IH]; intros [|t] H; cbn in *; try discriminate.
      - now injection H as ->.
      - f_equal. now apply IH. }
    rewrite E. destruct y. apply reach_refl.
  - pose proof (kl_act body_of H) as S. destruct (f (k_files y, out)) as [[fs o'] p'] eqn:Ef. cbn [fst snd] in *.
    eapply reach_trans; [eapply reach_step; [apply reach_refl|exists t; exact S]|].
    specialize (IH (k_files y, out)). rewrite Ef in IH. cbn [snd] in IH.
    specialize (IH (Clients fs (set_nth t (k_clients y) (KRun c o' p', rest)) (k_log y)) t c o' rest).
    cbn [k_clients k_files k_log] in IH. rewrite set_set_nth in IH. apply IH. eapply set_nth_get. exact H.
Qed.

Lemma call_steps (y : @clients C) t c rest : nth_error (k_clients y) t = Some (KIdle, c :: rest) ->
  reach step y (Clients (fst (call_alone body_of c (k_files y))) (set_nth t (k_clients y) (KIdle, rest))
    (k_log y ++ [(t, c, snd (call_alone body_of c (k_files y)))])).
Proof.
  intros H.
  set (b := body_of c).
  set (y1 := Clients (k_files y) (set_nth t (k_clients y) (KRun c (cb_out b) (cb_code b), rest)) (k_log y)).
  assert (S1 : step y y1) by (exists t; now apply kl_start).
  assert (N1 : nth_error (k_clients y1) t = Some (KRun c (cb_out b) (cb_code b), rest)) by (eapply set_nth_get; exact H).
  pose proof (run_steps N1) as R. cbn [k_files k_clients k_log y1] in R. rewrite set_set_nth in R.
  eapply reach_trans; [eapply reach_step; [apply reach_refl|exact S1]|].
  eapply reach_step; [exact R|]. exists t.
  match type of R with reach _ _ ?y2 => set (y2' := y2) end.
  assert (N2 : nth_error (k_clients y2') t =
    Some (KRun c (snd (fst (run (cb_code b) (k_files y, cb_out b)))) (Ret (snd (run (cb_code b) (k_files y, cb_out b)))), rest))
    by (eapply set_nth_get; exact H).
  pose proof (kl_end body_of N2) as S2. unfold y2' in S2 at 2. cbn [k_files k_clients k_log y2'] in S2.
  rewrite set_set_nth in S2. exact S2.
Qed.

Lemma set_nth_map A B (g : A -> B) t l x : set_nth t (map g l) (g x) = map g (set_nth t l x).
Proof. revert l. induction t as [|t IH]; intros [|y l]; cbn; try reflexivity. f_equal. apply IH. Qed.

Theorem one_by_one ls order : interleaving ls order -> forall st log, exists y,
  reach step (Clients st (map (fun l => (@KIdle C, l)) ls) log) y /\ all_answered y /\
  k_files y = fst (calls_alone body_of order st).
Proof.
  induction 1 as [ls H|ls t c rest order H Hi IH]; intros st log.
  - eexists. split; [apply reach_refl|]. split; [|reflexivity]. unfold all_answered. cbn [k_clients].
    induction H as [|x l <- Hl IHl]; constructor; auto.
  - destruct (IH (fst (call_alone body_of c st)) (log ++ [(t, c, snd (call_alone body_of c st))])) as (y & R & A & E).
    exists y. split; [|split; [exact A|]].
    + eapply reach_trans; [|exact R]. 
      pose proof (@call_steps (Clients st (map (fun l => (@KIdle C, l)) ls) log) t c rest) as S.
      cbn [k_files k_clients k_log] in S. rewrite <- (set_nth_map (fun l => (@KIdle C, l)) t ls rest). apply S.
      rewrite nth_error_map, H. reflexivity.
    + cbn [calls_alone]. destruct (call_alone body_of c st) as [s1 o]. cbn [fst] in E.
      destruct (calls_alone body_of order s1) as [s2 os] eqn:E2. cbn [fst] in *. exact E.
Qed.
End Order.

(** ** Progress *)
Section Progress.
Variables (C : Type) (body_of : C -> call_body).

Theorem clients_progress (y : @clients C) : all_answered y \/ exists y', clients_step body_of y y'.
Proof.
  assert (D : all_answered y \/ exists t x, nth_error (k_clients y) t = Some x /\ x <> (KIdle, [])).
  { unfold all_answered. induction (k_clients y) as [|x l IH]; [now left|].
    assert (X : x = (KIdle, []) \/ x <> (KIdle, [])).
    { destruct x as [[|c o p] [|c' r]]; [now left|right; congruence..]. }
    destruct X as [->|X]; [|right; exists 0%nat, x; auto].
    destruct IH as [IH|(t & x & H & Hn)]; [left; now constructor|right; exists (S t), x; auto]. }
  destruct D as [D|(t & [s rest] & Hn & Hne)]; [now left|right].
  destruct s as [|c out p].
  - destruct rest as [|c rest]; [congruence|]. eexists. exists t. eapply kl_start. exact Hn.
  - destruct p as [o|f]; eexists; exists t; [eapply kl_end|eapply kl_act]; exact Hn.
Qed.

Inductive ksmaller : kstate * list C -> kstate * list C -> Prop :=
| ks_start c rest out p : ksmaller (KRun c out p, rest) (KIdle, c :: rest)
| ks_act c rest out out' f m : ksmaller (KRun c out' (snd (f m)), rest) (KRun c out (Act f), rest)
| ks_end c rest out o : ksmaller (KIdle, rest) (KRun c out (Ret o), rest).
Lemma ksmaller_acc x : Acc ksmaller x.
Proof.
  destruct x as [s rest]. revert s. induction rest as [|c rest IH].
  - assert (I0 : Acc ksmaller (KIdle, [])) by (constructor; intros y H; inversion H).
    assert (R : forall c p out, Acc ksmaller (KRun c out p, [])).
    { intros c p. induction p as [o|f IHp] using prog_ind2; intros out; constructor; intros y H; inversion H; subst; auto. }
    intros [|c out p]; auto.
  - assert (I0 : Acc ksmaller (KIdle, c :: rest)) by (constructor; intros y H; inversion H; subst; apply IH).
    assert (R : forall c' p out, Acc ksmaller (KRun c' out p, c :: rest)).
    { intros c' p. induction p as [o|f IHp] using prog_ind2; intros out; constructor; intros y H; inversion H; subst; auto. }
    intros [|c' out p]; auto.
Qed.
Inductive kone : list (kstate * list C) -> list (kstate * list C) -> Prop :=
| kone_here x y l : ksmaller x y -> kone (x :: l) (y :: l)
| kone_later x l l' : kone l l' -> kone (x :: l) (x :: l').
Lemma kone_acc l : Acc kone l.
Proof.
  induction l as [|x l IH]; [constructor; intros y H; inversion H|].
  revert l IH. induction (ksmaller_acc x) as [x _ IHx]. intros l IH. induction IH as [l Hl IHl].
  constructor. intros z H. inversion H; subst.
  - apply IHx; [assumption|]. now constructor.
  - apply IHl. assumption.
Qed.
Lemma kone_set t l x y : nth_error l t = Some y -> ksmaller x y -> kone (set_nth t l x) l.
Proof.
  revert l. induction t as [|t IH]; intros [|z l] H Hs; cbn in *; try discriminate.
  - injection H as ->. now constructor.
  - constructor. now apply IH.
Qed.
Theorem clients_terminate (y : @clients C) : Acc (fun a b => clients_step body_of b a) y.
Proof.
  remember (k_clients y) as l eqn:E. revert y E. induction (kone_acc l) as [l _ IH]. intros y ->.
  constructor. intros y' H. apply (IH (k_clients y')); [|reflexivity].
  destruct H as [t H]. destruct H; cbn [k_clients]; eapply kone_set; eauto; constructor.
Qed.
End Progress.

(** ** Executing a schedule, for examples *)
Section Exec.
Variables (C : Type) (body_of : C -> call_body).
Definition kexec_step (y : @clients C) (t : nat) : option clients :=
  match nth_error (k_clients y) t with
  | None => None
  | Some (KIdle, []) => None
  | Some (KIdle, c :: rest) =>
      Some (Clients (k_files y) (set_nth t (k_clients y) (KRun c (cb_out (body_of c)) (cb_code (body_of c)), rest)) (k_log y))
  | Some (KRun c out (Act f), rest) =>
      let r := f (k_files y, out) in
      Some (Clients (fst (fst r)) (set_nth t (k_clients y) (KRun c (snd (fst r)) (snd r), rest)) (k_log y))
  | Some (KRun c out (Ret o), rest) =>
      Some (Clients (k_files y) (set_nth t (k_clients y) (KIdle, rest)) (k_log y ++ [(t, c, answer (cb_size (body_of c)) out o)]))
  end.
(** Clients that have nothing to do are skipped. *)
Fixpoint kexec (y : @clients C) (sched : list nat) : clients :=
  match sched with
  | [] => y
  | t :: r => kexec (match kexec_step y t with Some y' => y' | None => y end) r
  end.
Lemma kexec_step_ok y t y' : kexec_step y t = Some y' -> client_step body_of y t y'.
Proof.
  unfold kexec_step. destruct (nth_error (k_clients y) t) as [[s rest]|] eqn:E; [|discriminate].
  destruct s as [|c out p].
  - destruct rest as [|c rest]; [discriminate|]. intros [= <-]. now apply kl_start.
  - destruct p as [o|f]; intros [= <-]; [now apply kl_end|now apply kl_act].
Qed.
Lemma kexec_reach sched : forall y0 y, reach (clients_step body_of) y0 y -> reach (clients_step body_of) y0 (kexec y sched).
Proof.
  induction sched as [|t r IH]; intros y0 y H; cbn; [exact H|]. apply IH.
  destruct (kexec_step y t) as [y1|] eqn:E; [|exact H].
  eapply reach_step; [exact H|]. exists t. now apply kexec_step_ok.
Qed.
End Exec.
