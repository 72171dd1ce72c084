(** From batches to single units. *)
From Verif Require Import M_Base M_Pool S_Pool P_Base P_Pool.
Import List ListNotations.
Local Open Scope nat_scope.

Lemma batches_concat A (fuel : nat) (c : N) (items : list A) : (1 <= c)%N -> length items <= fuel ->
  concat (batches fuel c items) = items.
Proof.
  intros Hc. revert items; induction fuel as [|fuel IH]; intros items L; [destruct items; cbn in *; [reflexivity|lia]|].
  destruct items as [|x items]; [reflexivity|]. cbn [batches concat].
  rewrite IH; [now rewrite firstn_skipn|]. rewrite skipn_length. cbn [length] in *.
  enough (1 <= N.to_nat (N.min (lenN (x :: items)) c)) by lia. unfold lenN. cbn [length]. lia.
Qed.

Lemma batches_nonempty A (fuel : nat) (c : N) (items : list A) b : (1 <= c)%N -> In b (batches fuel c items) -> b <> [].
Proof.
  intros Hc. revert items; induction fuel as [|fuel IH]; intros [|x items]; cbn [batches In]; try tauto.
  intros [<-|H]; [|eauto]. destruct (N.to_nat (N.min (lenN (x :: items)) c)) as [|k] eqn:E; [|discriminate].
  unfold lenN in E. cbn [length] in E. lia.
Qed.

Lemma batches_size A (fuel : nat) (c : N) (items : list A) b : In b (batches fuel c items) -> length b <= N.to_nat c.
Proof.
  revert items; induction fuel as [|fuel IH]; intros [|x items]; cbn [batches In]; try tauto.
  intros [<-|H]; [|eauto]. rewrite firstn_length. lia.
Qed.

Lemma chunked_work_pos e : (1 <= chunked_work e)%N.
Proof. unfold chunked_work. lia. Qed.

Lemma first_error_concat (f : nat -> outcome unit) bss :
  first_error (map (fun bs => thrown (first_error (map f bs))) bss) = first_error (map f (concat bss)).
Proof.
  induction bss as [|bs r IH]; [reflexivity|]. cbn [map concat]. rewrite map_app, first_error_app, <- IH.
  cbn [first_error]. destruct (first_error (map f bs)); reflexivity.
Qed.

Lemma nth_map_seq A (l : list A) d : map (fun k => nth k l d) (seq 0 (length l)) = l.
Proof.
  induction l as [|x l IH]; [reflexivity|]. cbn [length seq map]. cbn [nth]. f_equal.
  rewrite <- seq_shift, map_map. exact IH.
Qed.

Lemma NoDup_concat_parts A (bss : list (list A)) : NoDup (concat bss) ->
  (forall bs, In bs bss -> NoDup bs) /\
  forall i j x, i < length bss -> j < length bss -> In x (nth i bss []) -> In x (nth j bss []) -> i = j.
Proof.
  induction bss as [|bs r IH]; intros H; [split; [intros ? []|cbn; intros; lia]|]. cbn [concat] in H.
  assert (H1 : NoDup bs /\ NoDup (concat r) /\ forall x, In x bs -> ~ In x (concat r)).
  { clear -H. induction bs as [|y bs IH]; [repeat split; [constructor|exact H|intros ? []]|].
    cbn in H. inversion H as [|? ? N1 N2]; subst. destruct (IH N2) as (A1 & A2 & A3). repeat split; auto.
    - constructor; auto. intros X. apply N1, in_or_app. now left.
    - intros x [<-|X]; auto. intros Y. apply N1, in_or_app. now right. }
  destruct H1 as (A1 & A2 & A3). destruct (IH A2) as (B1 & B2). split; [intros ? [<-|]; auto|].
  intros [|i] [|j] x Li Lj; cbn [nth length] in *; auto.
  - intros Hx Hy. exfalso. apply (A3 x Hx). apply in_concat. eexists. split; [|exact Hy]. apply nth_In. lia.
  - intros Hy Hx. exfalso. apply (A3 x Hx). apply in_concat. eexists. split; [|exact Hy]. apply nth_In. lia.
  - intros Hx Hy. f_equal. apply (B2 i j x); auto; lia.
Qed.

Lemma Forall_forall_repeat A (P : A -> Prop) x n : P x -> Forall P (repeat x n).
Proof. intros H. apply Forall_forall. intros y Hy. apply repeat_spec in Hy. now subst. Qed.

Section Units.
Variables (M B loc V : Type) (get : M -> loc -> V).
Variables (f : nat -> nat -> B -> prog M B) (junk I : B -> Prop) (cnt : nat).
Variables (F : nat -> loc -> Prop) (R : loc -> Prop) (m0 : M) (fin : nat -> M) (res : nat -> outcome unit).
Hypothesis uok : tasks_ok get cnt (fun i tid => f tid i) I F R m0 fin res.
Hypothesis junk_ok : forall b, junk b -> I b.
Notation agree := (agree get).

Definition batch_res (l : list nat) : outcome unit := thrown (first_error (map res l)).
Definition batch_F (l : list nat) : loc -> Prop := fun x => exists i, In i l /\ F i x.

Lemma batch_confined l tid b : (forall i, In i l -> i < cnt) -> confined get (batch_F l) R (batch_prog f tid l b).
Proof.
  intros Hlt. assert (X : forall l', (forall i, In i l' -> In i l) -> forall b, confined get (batch_F l) R (batch_prog f tid l' b)).
  { induction l' as [|i l' IH]; intros Hs b'; [constructor|]. cbn [batch_prog]. apply confined_bind.
    - eapply confined_mono; [| |apply (to_confined uok tid b' (i := i)); apply Hlt, Hs; now left].
      + intros x Hx. exists i. split; [apply Hs; now left|exact Hx].
      + intros x Hx. now right.
    - intros b1. apply IH. intros j Hj. apply Hs. now right. }
  apply X. auto.
Qed.

Lemma started_in l i : In i (started res l) -> In i l.
Proof.
  induction l as [|a l IH]; cbn; [tauto|]. intros [<-|H]; [auto|]. destruct (res a); cbn in H; tauto.
Qed.

Lemma batch_run l : NoDup l -> (forall i, In i l -> i < cnt) -> forall tid b mem, I b ->
  (forall i, In i l -> agree (either (F i) R) mem m0) ->
  (forall i, In i (started res l) -> agree (F i) (fst (run (batch_prog f tid l b) mem)) (fin i)) /\
  (forall x, (forall i, In i (started res l) -> ~ F i x) -> get (fst (run (batch_prog f tid l b) mem)) x = get mem x) /\
  ends I (snd (run (batch_prog f tid l b) mem)) (batch_res l).
Proof.
  induction l as [|i l IH]; intros ND Hlt tid b mem HI HA.
  { cbn. repeat split; auto. intros ? []. }
  cbn [batch_prog]. rewrite run_bind. inversion ND as [|? ? N1 N2]; subst.
  pose proof (Hlt i (or_introl eq_refl)) as Li.
  pose proof (to_confined uok tid b Li) as Cf. destruct (to_result uok tid Li HI) as [T1 T2].
  destruct (confined_run Cf (HA i (or_introl eq_refl))) as [E1 _].
  pose proof (confined_agree Cf (HA i (or_introl eq_refl))) as E2.
  pose proof (confined_frame Cf) as Fr. specialize (Fr mem).
  cbn beta in *. destruct (run (f tid i b) mem) as [m1 o1]. destruct (run (f tid i b) m0) as [m2 o2]. cbn [fst snd] in *. subst o2.
  assert (A1 : agree (F i) m1 (fin i)).
  { eapply agree_trans; [|exact T1]. eapply agree_sub; [|exact E2]. now left. }
  unfold batch_res. cbn [started map first_error]. destruct o1 as [b1|e|], (res i) as [[]|e'|] eqn:Er; cbn in T2; try contradiction.
  - assert (HA1 : forall j, In j l -> agree (either (F j) R) m1 m0).
    { intros j Hj. eapply agree_trans; [|apply HA; now right]. intros x Hx. apply Fr.
      intros Fx. destruct Hx as [Hx|Hx].
      - apply (to_disjoint uok (j := i) (Hlt _ (or_intror Hj)) Li) in Hx; auto. intros ->. auto.
      - exact (to_readonly uok Li Fx Hx). }
    destruct (IH N2 (fun j Hj => Hlt j (or_intror Hj)) tid b1 m1 T2 HA1) as (K1 & K2 & K3).
    split; [|split; [|exact K3]].
    + intros j [<-|Hj]; [|auto]. eapply agree_trans; [|exact A1]. intros x Hx. apply K2. intros j Hj Fx.
      assert (Hj' : In j l) by now apply started_in.
      apply (to_disjoint uok Li (Hlt _ (or_intror Hj'))) in Hx; auto. intros ->. auto.
    + intros x Hx. rewrite K2; [apply Fr, Hx; now left|]. intros j Hj. apply Hx. now right.
  - subst e'. cbn [fst snd]. split; [|split].
    + intros j [<-|[]]. exact A1.
    + intros x Hx. apply Fr, Hx. now left.
    + reflexivity.
Qed.

Lemma started_all l : first_error (map res l) = None -> (forall i, In i l -> res i <> UB) -> started res l = l.
Proof.
  induction l as [|i l IH]; cbn; [auto|]. intros H HU. pose proof (HU i (or_introl eq_refl)). destruct (res i); try congruence.
  f_equal. apply IH; auto.
Qed.
Lemma res_not_UB i : (exists b, I b) -> i < cnt -> res i <> UB.
Proof.
  intros [b Hb] Hi E. destruct (to_result uok 0 Hi Hb) as [_ T]. rewrite E in T. now destruct (snd _).
Qed.

(** Splitting the units into batches. *)
Variable bss : list (list nat).
Hypothesis bss_units : concat bss = seq 0 cnt.

Lemma batch_unit k i : In i (nth k bss []) -> i < cnt.
Proof.
  intros H. assert (X : In i (concat bss)).
  { apply in_concat. exists (nth k bss []). split; [|exact H].
    destruct (Nat.lt_ge_cases k (length bss)) as [L|L]; [now apply nth_In|]. rewrite nth_overflow in H by auto. destruct H. }
  rewrite bss_units in X. apply in_seq in X. lia.
Qed.
Lemma bss_parts : (forall k, NoDup (nth k bss [])) /\
  forall j k i, j < length bss -> k < length bss -> In i (nth j bss []) -> In i (nth k bss []) -> j = k.
Proof.
  destruct (@NoDup_concat_parts _ bss) as [H1 H2]; [rewrite bss_units; apply seq_NoDup|]. split; [|exact H2].
  intros k. destruct (Nat.lt_ge_cases k (length bss)) as [L|L]; [apply H1; now apply nth_In|].
  rewrite nth_overflow by auto. constructor.
Qed.

Lemma batches_ok b0 : I b0 ->
  tasks_ok get (length bss) (fun k tid => batch_prog f tid (nth k bss [])) I (fun k => batch_F (nth k bss [])) R m0
    (fun k => fst (run (batch_prog f 0 (nth k bss []) b0) m0)) (fun k => batch_res (nth k bss [])).
Proof.
  intros HI. destruct bss_parts as [P1 P2]. split.
  - intros j k x Lj Lk Hne (i & Hi & Fi) (i' & Hi' & Fi'). destruct (Nat.eq_dec i i') as [<-|Hd].
    + apply Hne. eapply P2; eauto.
    + apply (to_disjoint uok (batch_unit Hi) (batch_unit Hi') Hd Fi Fi').
  - intros k x Lk (i & Hi & Fi). exact (to_readonly uok (batch_unit Hi) Fi).
  - intros k tid b Lk. apply batch_confined. intros i. apply (@batch_unit k).
  - intros k tid b Lk Hb.
    assert (HA : forall i, In i (nth k bss []) -> agree (either (F i) R) m0 m0) by (intros; apply agree_refl).
    destruct (batch_run (P1 k) (@batch_unit k) tid Hb HA) as (A1 & A2 & A3).
    destruct (batch_run (P1 k) (@batch_unit k) 0 HI HA) as (B1 & B2 & _).
    split; [|exact A3]. intros x (i & Hi & Fx).
    destruct (in_dec Nat.eq_dec i (started res (nth k bss []))) as [Y|Y].
    + now rewrite (A1 i Y x Fx), (B1 i Y x Fx).
    + assert (Z : forall j, In j (started res (nth k bss [])) -> ~ F j x).
      { intros j Hj Fj. destruct (Nat.eq_dec i j) as [<-|Hd]; [auto|].
        apply started_in in Hj. exact (to_disjoint uok (batch_unit Hi) (batch_unit Hj) Hd Fx Fj). }
      rewrite A2, B2; auto.
Qed.

(** What a batch leaves behind. *)
Lemma batch_effect b0 k : I b0 -> k < length bss ->
  (forall i, In i (started res (nth k bss [])) -> agree (F i) (fst (run (batch_prog f 0 (nth k bss []) b0) m0)) (fin i)) /\
  (forall i, In i (nth k bss []) -> ~ In i (started res (nth k bss [])) ->
     agree (F i) (fst (run (batch_prog f 0 (nth k bss []) b0) m0)) m0).
Proof.
  intros HI Lk. destruct bss_parts as [P1 P2].
  destruct (batch_run (P1 k) (@batch_unit k) 0 HI (fun i _ => @agree_refl _ _ _ get _ m0)) as (B1 & B2 & _).
  split; [exact B1|]. intros i Hi Hn x Fx. apply B2. intros j Hj Fj.
  destruct (Nat.eq_dec i j) as [<-|Hd]; [auto|]. apply started_in in Hj.
  exact (to_disjoint uok (batch_unit Hi) (batch_unit Hj) Hd Fx Fj).
Qed.
End Units.

Section Run.
Variables (M B loc V : Type) (get : M -> loc -> V).
Variables (f : nat -> nat -> B -> prog M B) (junk I : B -> Prop) (cnt : nat).
Variables (F : nat -> loc -> Prop) (R : loc -> Prop) (m0 : M) (fin : nat -> M) (res : nat -> outcome unit).
Hypothesis uok : tasks_ok get cnt (fun i tid => f tid i) I F R m0 fin res.
Hypothesis junk_ok : forall b, junk b -> I b.
Notation agree := (agree get).

(** The result of a loop, for every number of threads and every schedule. *)
Theorem foreach_run_result threads est b0 m1 r : I b0 -> foreach_run threads est cnt f junk b0 m0 m1 r ->
  r = thrown (first_error (map res (seq 0 cnt))) /\
  (forall l, (forall i, i < cnt -> ~ F i l) -> get m1 l = get m0 l) /\
  exists bss, concat bss = seq 0 cnt /\
    ((1 < threads)%N -> forall bs, In bs bss -> (Z.of_nat (length bs) <= Z.max est 1)%Z) /\
    (forall bs i, In bs bss -> In i (started res bs) -> agree (F i) m1 (fin i)) /\
    (forall bs i, In bs bss -> In i bs -> ~ In i (started res bs) -> agree (F i) m1 m0).
Proof.
  intros HI [m1' o Ht Hr|p exc Ht Hr].
  - assert (C : concat [seq 0 cnt] = seq 0 cnt) by (cbn; apply app_nil_r).
    unfold foreach_sequential in Hr.
    destruct (batch_run uok (seq_NoDup cnt 0) (fun i Hi => proj2 (proj1 (in_seq _ _ _) Hi)) 0 HI
                (fun i _ => @agree_refl _ _ _ get _ m0)) as (B1 & B2 & B3).
    rewrite Hr in B1, B2, B3. cbn [fst snd] in *.
    assert (In1 : forall i, i < cnt -> In i (seq 0 cnt)) by (intros; apply in_seq; lia).
    split; [|split].
    + unfold batch_res in B3. destruct o, (first_error (map res (seq 0 cnt))); cbn in *; try tauto; congruence.
    + intros l Hl. apply B2. intros i Hi. apply Hl. apply started_in in Hi. apply in_seq in Hi. lia.
    + exists [seq 0 cnt]. split; [exact C|]. split; [lia|]. split.
      * intros bs i [<-|[]]. apply B1.
      * intros bs i [<-|[]] Hi Hn x Fx. apply B2. intros j Hj Fj.
        destruct (Nat.eq_dec i j) as [<-|Hd]; [auto|]. apply started_in in Hj. apply in_seq in Hi, Hj.
        refine (to_disjoint uok _ _ Hd Fx Fj); lia.
  - set (bss := batches cnt (chunked_work est) (seq 0 cnt)) in *.
    assert (C : concat bss = seq 0 cnt).
    { apply batches_concat; [apply chunked_work_pos|]. now rewrite seq_length. }
    pose proof (batches_ok uok C HI) as bok.
    destruct (foreach_result (n := N.to_nat threads) bok junk_ok ltac:(lia)
                (Forall_forall_repeat _ HI) (repeat_length _ _) Hr) as [_ X].
    specialize (X exc eq_refl). destruct X as (X1 & _ & _ & X4 & X5).
    split; [|split].
    + subst exc. f_equal. rewrite <- C, <- first_error_concat. f_equal. unfold batch_res.
      rewrite <- (map_map (fun k => nth k bss []) (fun l => thrown (first_error (map res l)))). now rewrite nth_map_seq.
    + intros l Hl. apply X5. intros k Hk (i & Hi & Fi). apply (Hl i); [|exact Fi]. eapply batch_unit; eauto.
    + exists bss. split; [exact C|]. split; [|split].
      * intros _ bs Hb. apply batches_size in Hb. unfold chunked_work in Hb. lia.
      * intros bs i Hb Hi. apply (In_nth _ _ []) in Hb. destruct Hb as (k & Lk & <-).
        destruct (batch_effect uok C HI Lk) as [E1 _].
        eapply agree_trans; [|now apply E1]. intros x Fx. apply (X4 k Lk). exists i. split; [now apply started_in in Hi|exact Fx].
      * intros bs i Hb Hi Hn. apply (In_nth _ _ []) in Hb. destruct Hb as (k & Lk & <-).
        destruct (batch_effect uok C HI Lk) as [_ E2].
        eapply agree_trans; [|now apply (E2 i)]. intros x Fx. apply (X4 k Lk). exists i. auto.
Qed.

(** When no unit fails the memory is the same, whatever the number of threads. *)
Theorem foreach_run_ok threads est b0 m1 r : I b0 -> foreach_run threads est cnt f junk b0 m0 m1 r ->
  (forall i, i < cnt -> res i = Ok tt) ->
  r = Ok tt /\ (forall i, i < cnt -> agree (F i) m1 (fin i)) /\
  (forall l, (forall i, i < cnt -> ~ F i l) -> get m1 l = get m0 l).
Proof.
  intros HI Hr Hok. destruct (foreach_run_result HI Hr) as (E & E2 & bss & C & _ & D & _).
  assert (NE : forall l, (forall i, In i l -> i < cnt) -> first_error (map res l) = None).
  { induction l as [|i l IH]; intros Hl; [reflexivity|]. cbn. rewrite Hok by (apply Hl; now left). apply IH. intros j Hj. apply Hl. now right. }
  split; [|split; [|exact E2]].
  - rewrite E, NE; [reflexivity|]. intros i Hi. apply in_seq in Hi. lia.
  - intros i Hi. assert (X : In i (concat bss)) by (rewrite C; apply in_seq; lia).
    apply in_concat in X. destruct X as (bs & Hb & Hx). apply (D bs); [exact Hb|].
    assert (Hl : forall j, In j bs -> j < cnt).
    { intros j Hj. assert (Y : In j (concat bss)) by (apply in_concat; eauto). rewrite C in Y. apply in_seq in Y. lia. }
    rewrite started_all; auto. intros j Hj. rewrite Hok; [discriminate|auto].
Qed.
End Run.

Section Exists.
Variables (M B loc V : Type) (get : M -> loc -> V).
Variables (f : nat -> nat -> B -> prog M B) (junk I : B -> Prop) (cnt : nat).
Variables (F : nat -> loc -> Prop) (R : loc -> Prop) (m0 : M) (fin : nat -> M) (res : nat -> outcome unit).
Hypothesis uok : tasks_ok get cnt (fun i tid => f tid i) I F R m0 fin res.
Hypothesis junk_ok : forall b, junk b -> I b.
Hypothesis junk_some : exists b, junk b.

(** Every run can be continued until the loop returns. *)
Theorem foreach_run_exists threads est b0 : I b0 -> exists m1 r, foreach_run threads est cnt f junk b0 m0 m1 r.
Proof.
  intros HI. destruct (N.le_gt_cases threads 1) as [L|L].
  { destruct (run (foreach_sequential f (seq 0 cnt) b0) m0) as [m1 o] eqn:E. exists m1, (ended o). now constructor. }
  set (bss := batches cnt (chunked_work est) (seq 0 cnt)).
  assert (C : concat bss = seq 0 cnt).
  { apply batches_concat; [apply chunked_work_pos|]. now rewrite seq_length. }
  pose proof (batches_ok uok C HI) as bok. assert (Ln : 0 < N.to_nat threads) by lia.
  set (st := foreach_step (fun k tid => batch_prog f tid (nth k bss [])) junk (length bss)).
  assert (X : forall s, reach st (pool_init m0 (repeat b0 (N.to_nat threads)), CEnqueue 0) s ->
            exists p exc, reach st (pool_init m0 (repeat b0 (N.to_nat threads)), CEnqueue 0) (p, CReturn exc)).
  { intros s Hs. pose proof (foreach_terminates bok junk_ok Ln (Forall_forall_repeat _ HI) (repeat_length _ _) Hs) as HA.
    induction HA as [[p c] _ IH].
    destruct (foreach_progress bok junk_ok Ln (Forall_forall_repeat _ HI) (repeat_length _ _) junk_some Hs) as [[exc ->]|[s' St]].
    - eauto.
    - apply (IH s' St). eapply reach_step; [exact Hs|]. now constructor. }
  destruct (X _ (reach_refl _ _)) as (p & exc & Hr). exists (p_mem p), (thrown exc). now constructor.
Qed.
End Exists.

(** Counting calls: the memory records how often each item was processed; [fail]
    are the items whose processing throws. *)
Definition count_item {B} (fail : nat -> option error) (tid i : nat) (b : B) : prog (nat -> nat) B :=
  Act (fun calls => (fun j => if j =? i then S (calls j) else calls j,
                     Ret (match fail i with None => Ok b | Some e => Throw e end))).

Lemma count_ok B (I : B -> Prop) cnt fail :
  tasks_ok (fun (c : nat -> nat) i => c i) cnt (fun i tid => count_item fail tid i) I (fun i => eq i) (fun _ => False)
    (fun _ => 0) (fun _ _ => 1) (fun i => thrown (fail i)).
Proof.
  split; try tauto.
  - intros i j l _ _ Hne <- <-. auto.
  - intros i tid b Hi. unfold count_item. constructor.
    + intros m m' _. cbn. split; [reflexivity|]. intros l E. destruct (l =? i); congruence.
    + intros m l Hne. cbn. destruct (Nat.eqb_spec l i); [subst; tauto|reflexivity].
    + intros m. constructor.
  - intros i tid b Hi HI. cbn. split.
    + intros l <-. now rewrite Nat.eqb_refl.
    + destruct (fail i); cbn; auto.
Qed.

Lemma count_once B (junk : B -> Prop) threads est cnt b0 calls r :
  foreach_run threads est cnt (count_item (fun _ => None)) junk b0 (fun _ => 0) calls r ->
  r = Ok tt /\ forall i, calls i = if i <? cnt then 1 else 0.
Proof.
  intros H. destruct (foreach_run_ok (count_ok (fun _ : B => True) cnt (fun _ => None)) (fun _ _ => Logic.I) Logic.I H)
    as (A & B1 & C); [reflexivity|].
  split; [exact A|]. intros i. destruct (Nat.ltb_spec i cnt) as [L|L].
  - now apply (B1 i L).
  - apply C. intros j Hj ->. lia.
Qed.

Lemma count_failures B (junk : B -> Prop) fail threads est cnt b0 calls r :
  foreach_run threads est cnt (count_item fail) junk b0 (fun _ => 0) calls r ->
  r = thrown (first_error (map (fun i => thrown (fail i)) (seq 0 cnt))) /\
  exists bss, concat bss = seq 0 cnt /\
    ((1 < threads)%N -> forall bs, In bs bss -> (Z.of_nat (length bs) <= Z.max est 1)%Z) /\
    (forall bs, In bs bss -> (forall i, In i bs -> fail i = None) -> forall i, In i bs -> calls i = 1) /\
    (forall i, calls i <= 1).
Proof.
  intros H. destruct (foreach_run_result (count_ok (fun _ : B => True) cnt fail) (fun _ _ => Logic.I) Logic.I H)
    as (A & C & bss & D & E0 & E1 & E2).
  split; [exact A|]. exists bss. split; [exact D|]. split; [exact E0|]. split.
  - intros bs Hb Hf i Hi. apply (E1 bs i Hb); [|reflexivity]. rewrite started_all; [exact Hi| |].
    + clear -Hf. induction bs as [|j bs IH]; [reflexivity|]. cbn. rewrite Hf by now left. apply IH. intros i Hi. apply Hf. now right.
    + intros j Hj. rewrite Hf by auto. discriminate.
  - intros i. destruct (Nat.lt_ge_cases i cnt) as [L|L].
    + assert (X : In i (concat bss)) by (rewrite D; apply in_seq; lia). apply in_concat in X. destruct X as (bs & Hb & Hi).
      destruct (in_dec Nat.eq_dec i (started (fun i => thrown (fail i)) bs)) as [Y|Y].
      * rewrite (E1 bs i Hb Y i eq_refl). lia.
      * rewrite (E2 bs i Hb Hi Y i eq_refl). lia.
    + rewrite C; [lia|]. intros j Hj ->. lia.
Qed.
