(** Proofs about the format that a dataset handle remembers. *)
From Coq Require Import ZArith Lia.
From Verif Require Import M_Base M_Text M_Pool M_Store M_S3 M_Fs M_Attributes M_ZarrCache S_Text S_S3 S_ZarrCache P_Base P_Key P_Pool P_S3.
Import List ListNotations.
Set Implicit Arguments.
Local Open Scope list_scope.
Local Open Scope nat_scope.

Lemma flag_known v : (flag v <? 0)%Z = false. Proof. now destruct v. Qed.
Lemma flag_answer v : (flag v =? 1)%Z = v. Proof. now destruct v. Qed.

Section Seeded.
Context {M : Type} (checks : list (check M)) (env : M -> M -> Prop).
Variables (h n : nat) (v : bool).

Definition calm (q : request_of) : Prop := match q with QSet x b => x = h \/ n <= x -> b = v | _ => True end.
Definition at_ok (w : world M) (a : where_at (check M)) : Prop :=
  match a with AtIdle => True | AtChecks x _ | AtStore x _ => x < length (w_caches w) /\ ~ copy_of (w_log w) h x end.

Record seeded (w : world M) : Prop := {
  se_len : n <= length (w_caches w);
  se_src : forall t x y, In (LCopy t x y) (w_log w) -> x < length (w_caches w) /\ y < length (w_caches w);
  se_fam : forall x, copy_of (w_log w) h x -> nth_error (w_caches w) x = Some (flag v) /\ (x = h \/ n <= x);
  se_thr : forall t a r, nth_error (w_threads w) t = Some (a, r) -> at_ok w a /\ Forall calm r;
  se_lt : forall t x o, In (LAnswer t x o) (w_log w) -> x < length (w_caches w);
  se_ans : forall t x o, In (LAnswer t x o) (w_log w) -> copy_of (w_log w) h x -> o = Ok v
}.

Lemma copy_answer t x o log y : copy_of (LAnswer t x o :: log) h y <-> copy_of log h y.
Proof.
  split; intros H; induction H as [|u a b H IH I]; try apply copy_self.
  - destruct I as [I|I]; [discriminate|]. eapply copy_step; eauto.
  - eapply copy_step; [exact IH|]. right. exact I.
Qed.

Lemma copy_new t x y log z : (forall t a b, In (LCopy t a b) log -> a < y /\ b < y) -> x < y -> h < y ->
  copy_of (LCopy t x y :: log) h z -> copy_of log h z \/ (z = y /\ copy_of log h x).
Proof.
  intros L X Hh H. induction H as [|u a b H IH I]; [left; apply copy_self|].
  destruct I as [I|I].
  - injection I as _ E1 E2. subst a b. destruct IH as [IH|(E & _)]; [right; auto|lia].
  - destruct IH as [IH|(-> & _)].
    + left. eapply copy_step; eauto.
    + destruct (L _ _ _ I). lia.
Qed.

Lemma seeded_set_thread (w : world M) m t a r l log : seeded w ->
  nth_error (w_threads w) t = Some (a, l) -> (exists p, l = p ++ r) -> forall a',
  (forall y, copy_of log h y <-> copy_of (w_log w) h y) ->
  (forall t x y, In (LCopy t x y) log -> In (LCopy t x y) (w_log w)) ->
  (forall t x o, In (LAnswer t x o) log -> x < length (w_caches w) /\ (copy_of (w_log w) h x -> o = Ok v)) ->
  at_ok w a' ->
  seeded (World m (w_caches w) (set_nth t (w_threads w) (a', r)) log).
Proof.
  intros [L Sr F T LA A] E (p & P) a' C S' A' K. subst l. destruct (T _ _ _ E) as (_ & Q). apply Forall_app in Q.
  split; cbn [w_caches w_threads w_log].
  - exact L.
  - intros u x y I. apply (Sr u). auto.
  - intros x I. apply F. now apply C.
  - intros u b s I. apply nth_error_set in I. destruct I as [(-> & Eq & _)|(N & I)].
    + injection Eq as -> ->. split; [|tauto]. destruct a'; cbn in *; rewrite ?C; auto.
    + destruct (T _ _ _ I) as (K' & R). split; [|exact R]. destruct b; cbn in *; rewrite ?C; auto.
  - intros u x o I. now apply (A' u x o).
  - intros u x o I J. destruct (A' u x o I) as (_ & B). apply B. now apply C.
Qed.

(** The caches of other handles may change. *)
Lemma seeded_set_cache (w : world M) x b : seeded w -> (copy_of (w_log w) h x -> b = v) ->
  seeded (World (w_store w) (set_nth x (w_caches w) (flag b)) (w_threads w) (w_log w)).
Proof.
  intros [L Sr F T LA A] B. split; cbn [w_caches w_threads w_log]; rewrite ?set_nth_length; auto.
  - intros y I. destruct (F _ I) as (E & O). split; [|exact O]. destruct (Nat.eq_dec x y) as [->|N].
    + rewrite set_nth_same by (apply nth_error_Some; congruence). rewrite B; auto.
    + rewrite set_nth_other by auto. exact E.
  - intros t a r I. destruct (T _ _ _ I) as (K & R). split; [|exact R]. destruct a; cbn in *; rewrite ?set_nth_length; auto.
Qed.

Lemma seeded_step w w' : seeded w -> world_step checks env w w' -> seeded w'.
Proof.
  intros S [t w'' St|m Em]; [|destruct S; split; auto].
  pose proof S as [L Sr F T LA A]. unfold thread_step in St.
  destruct (nth_error (w_threads w) t) as [[[|x rest|x b] l]|] eqn:E; [|destruct rest as [|c rest]| |discriminate].
  - destruct l as [|[x|x b|x] r]; [discriminate| | |]; destruct (nth_error (w_caches w) x) as [c|] eqn:Ec; try discriminate.
    + destruct (c <? 0)%Z eqn:Ek; injection St as <-.
      * eapply seeded_set_thread; try exact E; eauto; try tauto; [now exists [QIsZarr x]|].
        cbn. split; [apply nth_error_Some; congruence|]. intros I. destruct (F _ I) as (I' & _). rewrite Ec in I'.
        injection I' as ->. rewrite flag_known in Ek. discriminate.
      * eapply seeded_set_thread; try exact E; auto; [now exists [QIsZarr x]|apply copy_answer| | |exact I].
        -- intros u a y [I|I]; [discriminate|exact I].
        -- intros u y o [I|I]; [|split; [eauto|intros J; eauto]]. injection I as <- <- <-. split; [apply nth_error_Some; congruence|]. intros J. destruct (F _ J) as (I' & _). rewrite Ec in I'.
           injection I' as ->. now rewrite flag_answer.
    + injection St as <-. destruct (T _ _ _ E) as (_ & Q). inversion Q as [|? ? Q1 Q2]; subst. cbn in Q1.
      assert (B : copy_of (w_log w) h x -> b = v) by (intros I; destruct (F _ I) as (_ & O); auto).
      pose proof (seeded_set_cache S B) as S'.
      eapply (@seeded_set_thread _ (w_store w) t AtIdle r (QSet x b :: r) (w_log w) S'); cbn; auto; try tauto. now exists [QSet x b].
      intros; rewrite set_nth_length; split; eauto.
    + injection St as <-. assert (X : x < length (w_caches w)) by (apply nth_error_Some; congruence).
      assert (Hh : h < length (w_caches w)) by (apply nth_error_Some; destruct (F h (copy_self _ _)) as (I & _); congruence).
      destruct (T _ _ _ E) as (_ & Q). inversion Q as [|? ? _ Q2]; subst.
      assert (CN : forall z, copy_of (LCopy t x (length (w_caches w)) :: w_log w) h z -> copy_of (w_log w) h z \/ (z = length (w_caches w) /\ copy_of (w_log w) h x))
        by (intros z I; eapply copy_new; eauto).
      assert (LT : forall z, copy_of (w_log w) h z -> z < length (w_caches w)) by (intros z I; apply nth_error_Some; destruct (F _ I) as (I' & _); congruence).
      split; cbn [w_caches w_threads w_log]; rewrite ?app_length; cbn [length].
      * lia.
      * intros u a b [I|I]; [injection I as <- <- <-; lia|]. destruct (Sr _ _ _ I). lia.
      * intros z I. destruct (CN z I) as [I'|(-> & I')].
        -- destruct (F _ I') as (G & O). split; [|exact O]. rewrite nth_error_app1; auto.
        -- split; [|lia]. rewrite nth_error_app2, Nat.sub_diag by auto. destruct (F _ I') as (G & _). cbn. congruence.
      * intros u a s I. apply nth_error_set in I. destruct I as [(-> & Eq & _)|(N & I)]; [injection Eq as -> ->; split; [exact Logic.I|exact Q2]|].
        destruct (T _ _ _ I) as (K & R). split; [|exact R]. destruct a as [|y rr|y bb]; cbn in *; auto; rewrite app_length;
          (destruct K as (K1 & K2); split; [lia|]; intros J; destruct (CN y J) as [J'|(-> & _)]; [auto|lia]).
      * intros u y o [I|I]; [discriminate|]. specialize (LA _ _ _ I). lia.
      * intros u y o [I|I] J; [discriminate|]. destruct (CN y J) as [J'|(-> & _)]; [eauto|]. specialize (LA _ _ _ I). lia.
  - injection St as <-. eapply seeded_set_thread; try exact E; eauto; try tauto; [now exists []|]. now apply T in E.
  - destruct (T _ _ _ E) as ((K1 & K2) & _). destruct (c (w_store w)) as [m [[|]|]]; injection St as <-.
    + eapply seeded_set_thread; try exact E; eauto; try tauto; [now exists []|]. cbn. auto.
    + eapply seeded_set_thread; try exact E; eauto; try tauto; [now exists []|]. cbn. auto.
    + eapply seeded_set_thread; try exact E; auto; [now exists []|apply copy_answer| | |exact I].
      * intros u a y [I|I]; [discriminate|exact I].
      * intros u y o [I|I]; [|split; [eauto|intros J; eauto]]. injection I as <- <- <-. split; [exact K1|]. tauto.
  - destruct (T _ _ _ E) as ((K1 & K2) & _). injection St as <-.
    assert (B : copy_of (w_log w) h x -> b = v) by tauto.
    pose proof (seeded_set_cache S B) as S'.
    eapply (@seeded_set_thread _ (w_store w) t (AtStore x b) l l (LAnswer t x (Ok (flag b =? 1)%Z) :: w_log w) S'); cbn [w_caches w_threads w_log at_ok]; auto;
      [now exists []|apply copy_answer| |].
    * intros u a y [I|I]; [discriminate|exact I].
    * intros u y o [I|I]; rewrite set_nth_length; [|split; [eauto|intros J; eauto]]. injection I as <- <- <-. split; [exact K1|]. tauto.
Qed.
End Seeded.

Theorem seeded_start M (m : M) caches requests h v : nth_error caches h = Some (flag v) ->
  (forall r x b, In r requests -> In (QSet x b) r -> x = h \/ length caches <= x -> b = v) ->
  seeded h (length caches) v (world_start m caches requests).
Proof.
  intros E Q. split; cbn [w_caches w_threads w_log world_start]; auto.
  - intros t x y [].
  - intros x I. induction I as [|? ? ? _ _ []]. auto.
  - intros t a r I. apply nth_error_In, in_map_iff in I. destruct I as (r' & I & J). injection I as <- <-.
    split; [exact Logic.I|]. apply Forall_forall. intros [x|x b|x] Iq; cbn; auto. eapply Q; eauto.
  - intros t x o [].
  - intros t x o [].
Qed.

Theorem seeded_reach M (checks : list (check M)) env (m : M) caches requests h v w : nth_error caches h = Some (flag v) ->
  (forall r x b, In r requests -> In (QSet x b) r -> x = h \/ length caches <= x -> b = v) ->
  reach (world_step checks env) (world_start m caches requests) w ->
  forall t x o, copy_of (w_log w) h x -> In (LAnswer t x o) (w_log w) -> o = Ok v.
Proof.
  intros E Q R t x o C I. assert (S : seeded h (length caches) v w).
  { clear C I. induction R as [|w1 w2 _ IH St]; [now apply seeded_start|]. eapply seeded_step; eauto. }
  eapply se_ans; eauto.
Qed.

(** ** Handles that ask the store *)

Section Asking.
Context {M : Type} (checks : list (check M)) (env : M -> M -> Prop) (inv : M -> Prop).
Variable (bs : list bool).
Hypothesis env_ok : forall m m', inv m -> env m m' -> inv m'.
Definition constant (c : check M) (b : bool) : Prop := forall m, inv m -> exists m', c m = (m', Some b) /\ inv m'.
Hypothesis checks_ok : Forall2 constant checks bs.
Let v := existsb (fun b => b) bs.

Definition asks_ok (a : where_at (check M)) : Prop :=
  match a with
  | AtIdle => True
  | AtChecks _ rest => exists r, Forall2 constant rest r /\ existsb (fun b => b) r = v
  | AtStore _ b => b = v
  end.
Record asking (w : world M) : Prop := {
  as_inv : inv (w_store w);
  as_cache : forall x c, nth_error (w_caches w) x = Some c -> c = unknown \/ c = flag v;
  as_thr : forall t a r, nth_error (w_threads w) t = Some (a, r) -> asks_ok a /\ (forall x b, In (QSet x b) r -> b = v);
  as_ans : forall t x o, In (LAnswer t x o) (w_log w) -> o = Ok v
}.

Lemma asking_thread w t l : asking w -> forall a r m cs log, nth_error (w_threads w) t = Some (a, l) -> (exists p, l = p ++ r) ->
  forall a', asks_ok a' -> inv m -> (forall x c, nth_error cs x = Some c -> c = unknown \/ c = flag v) ->
  (forall t x o, In (LAnswer t x o) log -> o = Ok v) ->
  asking (World m cs (set_nth t (w_threads w) (a', r)) log).
Proof.
  intros [Iv C T A] a r m cs log E (p & ->) a' K Im Cs L. split; cbn [w_caches w_threads w_log w_store]; auto.
  intros u b s I. apply nth_error_set in I. destruct I as [(-> & Eq & _)|(N & I)]; [|eauto].
  injection Eq as -> ->. split; [exact K|]. intros x b I. apply (T _ _ _ E) with x. apply in_or_app. auto.
Qed.

Lemma asking_set w x : asking w -> forall y c, nth_error (set_nth x (w_caches w) (flag v)) y = Some c -> c = unknown \/ c = flag v.
Proof. intros S y c I. apply nth_error_set in I. destruct I as [(_ & -> & _)|(_ & I)]; [auto|]. eapply as_cache; eauto. Qed.

Lemma asking_step w w' : asking w -> world_step checks env w w' -> asking w'.
Proof.
  intros S [t w'' St|m Em]; [|destruct S; split; eauto].
  pose proof S as [Iv C T A]. unfold thread_step in St.
  destruct (nth_error (w_threads w) t) as [[[|x rest|x b] l]|] eqn:E; [|destruct rest as [|c rest]| |discriminate].
  - destruct l as [|[x|x b|x] r]; [discriminate| | |]; destruct (nth_error (w_caches w) x) as [c|] eqn:Ec; try discriminate.
    + destruct (c <? 0)%Z eqn:Ek; injection St as <-.
      * eapply asking_thread; eauto; [now exists [QIsZarr x]|]. cbn. eauto.
      * eapply asking_thread; eauto; [now exists [QIsZarr x]|exact I|]. intros u y o [I|I]; [|eauto].
        injection I as <- <- <-. destruct (C _ _ Ec) as [->| ->]; [discriminate|]. now rewrite flag_answer.
    + injection St as <-. assert (b = v) as -> by (eapply T; [exact E|left; reflexivity]).
      eapply asking_thread; eauto; [now exists [QSet x v]|exact I|]. now apply asking_set.
    + injection St as <-. eapply asking_thread; eauto; [now exists [QCopy x]|exact I| |].
      * intros y d I. destruct (Nat.lt_ge_cases y (length (w_caches w))) as [Ly|Ly]; [rewrite nth_error_app1 in I by auto; eauto|].
        rewrite nth_error_app2 in I by auto. destruct (y - length (w_caches w)) as [|k]; cbn in I; [injection I as <-; eauto|destruct k; discriminate].
      * intros u y o [I|I]; [discriminate|eauto].
  - injection St as <-. destruct (T _ _ _ E) as ((r & R & V) & _). inversion R; subst r. cbn in V.
    eapply asking_thread; eauto; try (now exists []); try exact V.
  - destruct (T _ _ _ E) as ((r & R & V) & _). inversion R as [|? b ? bs' Cb Cr]; subst. destruct (Cb _ Iv) as (m' & Ec & Im). rewrite Ec in St.
    destruct b; injection St as <-.
    + eapply asking_thread; eauto; try (now exists []); try exact V.
    + eapply asking_thread; eauto; try (now exists []). cbn. eauto.
  - destruct (T _ _ _ E) as (K & _). cbn in K. rewrite K in St. injection St as <-.
    eapply asking_thread; eauto; [now exists []|exact I|now apply asking_set|].
    intros u y o [I|I]; [|eauto]. injection I as <- <- <-. now rewrite flag_answer.
Qed.

Lemma asking_reach m caches requests w : inv m -> Forall (fun c => c = unknown \/ c = flag v) caches ->
  (forall r x b, In r requests -> In (QSet x b) r -> b = v) ->
  reach (world_step checks env) (world_start m caches requests) w ->
  forall t x o, In (LAnswer t x o) (w_log w) -> o = Ok v.
Proof.
  intros Im Cs Q R. enough (S : asking w) by apply S. induction R as [|w1 w2 _ IH St]; [|eapply asking_step; eauto].
  split; cbn [w_caches w_threads w_log w_store world_start]; auto.
  - intros x c I. rewrite Forall_forall in Cs. apply Cs. eapply nth_error_In; eauto.
  - intros t a r I. apply nth_error_In, in_map_iff in I. destruct I as (r' & I & J). injection I as <- <-. split; [exact Logic.I|]. eauto.
  - intros t x o [].
Qed.
End Asking.

(** ** Object stores *)

Section Store.
Variables (d : string) (s0 : s3).
Definition kept (s : s3) : Prop := reliable s /\ same_format d (objects s0) (objects s).

Lemma bool_same (b c : bool) (P : Prop) : (b = true <-> P) -> (c = true <-> P) -> b = c.
Proof. destruct b, c; intuition congruence. Qed.

Lemma head_constant name : reliable s0 -> name = ".zarray"%string \/ name = "zarr.json"%string ->
  exists b, constant kept (as_check (object_exists (join_key d name))) b /\ (b = true <-> In (join_key d name) (map fst (objects s0))).
Proof.
  intros R N. destruct (object_exists_reliable (join_key d name) R) as (_ & b & _ & _ & _ & Hb). rewrite held_in in Hb.
  exists b. split; [|exact Hb]. intros m (Rm & Fm).
  destruct (object_exists_reliable (join_key d name) Rm) as (m' & b' & E & O & R' & Hb'). rewrite held_in in Hb'.
  assert (b' = b) as ->.
  { eapply bool_same; [exact Hb'|]. rewrite Hb. apply Fm. exists name. auto. }
  exists m'. unfold as_check. rewrite E. split; [reflexivity|]. split; [exact R'|]. rewrite O. exact Fm.
Qed.

Lemma list_constant name : reliable s0 -> name = ".zarray"%string \/ name = "zarr.json"%string ->
  exists b, constant kept (as_check (any_with_prefix (join_key d name ++ "/"))) b /\
  (b = true <-> exists r, In (join_key d name ++ "/" ++ r)%string (map fst (objects s0))).
Proof.
  assert (X : forall s p, (exists k, held s k /\ String.prefix (p ++ "/") k = true) <-> exists r, In (p ++ "/" ++ r)%string (map fst (objects s))).
  { intros s p. split.
    - intros (k & K & P). apply prefix_iff in P. destruct P as (r & ->). exists r. rewrite held_in in K. now rewrite <- sapp_assoc.
    - intros (r & K). exists (p ++ "/" ++ r)%string. split; [now apply held_in|]. apply prefix_iff. exists r. now rewrite sapp_assoc. }
  intros R N. destruct (any_reliable (join_key d name ++ "/") R) as (_ & b & _ & _ & _ & Hb). rewrite X in Hb.
  exists b. split; [|exact Hb]. intros m (Rm & Fm).
  destruct (any_reliable (join_key d name ++ "/") Rm) as (m' & b' & E & O & R' & Hb'). rewrite X in Hb'.
  assert (b' = b) as ->.
  { eapply bool_same; [exact Hb'|]. rewrite Hb. split; intros (r & K); exists r; apply Fm; auto; exists name; eauto. }
  exists m'. unfold as_check. rewrite E. split; [reflexivity|]. split; [exact R'|]. rewrite O. exact Fm.
Qed.

Theorem s3_asking v (env : s3 -> s3 -> Prop) caches requests w : reliable s0 ->
  (v = true <-> exists k, zarr_object d k /\ In k (map fst (objects s0))) ->
  (forall s s', env s s' -> reliable s' /\ same_format d (objects s) (objects s')) ->
  Forall (fun c => c = unknown \/ c = flag v) caches ->
  (forall r x b, In r requests -> In (QSet x b) r -> b = v) ->
  reach (world_step (s3_checks d) env) (world_start s0 caches requests) w ->
  forall t x o, In (LAnswer t x o) (w_log w) -> o = Ok v.
Proof.
  intros R V Ev Cs Q Re.
  destruct (head_constant R (or_introl Logic.eq_refl)) as (b1 & C1 & H1).
  destruct (list_constant R (or_introl Logic.eq_refl)) as (b2 & C2 & H2).
  destruct (head_constant R (or_intror Logic.eq_refl)) as (b3 & C3 & H3).
  destruct (list_constant R (or_intror Logic.eq_refl)) as (b4 & C4 & H4).
  assert (Vb : existsb (fun b => b) [b1; b2; b3; b4] = v).
  { eapply bool_same; [|exact V]. cbn. rewrite !orb_true_iff, H1, H2, H3, H4. split.
    - intros [I|[(r & I)|[I|[(r & I)|I]]]]; [| | | |discriminate]; (eexists; split; [|exact I]).
      + exists ".zarray"%string. auto.
      + exists ".zarray"%string. eauto.
      + exists "zarr.json"%string. auto.
      + exists "zarr.json"%string. eauto.
    - intros (k & (name & [-> | ->] & [-> |(r & ->)]) & I); eauto 8. }
  rewrite <- Vb in *. eapply (@asking_reach _ (s3_checks d) env kept [b1; b2; b3; b4]); eauto.
  - intros s s' (Rs & Fs) E. destruct (Ev _ _ E) as (R' & F'). split; [exact R'|]. intros k Z. rewrite (Fs k Z). now apply F'.
  - repeat constructor; assumption.
  - split; [exact R|]. intros k _. tauto.
Qed.
End Store.

(** ** Handles that know their format leave the store alone *)

Definition no_checks {C} (a : where_at C) : Prop := match a with AtChecks _ _ => False | _ => True end.
Record quiet {M} (env : M -> M -> Prop) (m : M) (w : world M) : Prop := {
  qu_store : reach env m (w_store w);
  qu_cache : Forall (fun c => exists b, c = flag b) (w_caches w);
  qu_thr : Forall (fun p => no_checks (fst p)) (w_threads w)
}.
Lemma Forall_set A (P : A -> Prop) l n x : Forall P l -> P x -> Forall P (set_nth n l x).
Proof.
  intros F X. apply Forall_forall. intros y I. apply In_nth_error in I. destruct I as (k & I).
  apply nth_error_set in I. destruct I as [(_ & -> & _)|(_ & I)]; [exact X|]. rewrite Forall_forall in F. apply F. eapply nth_error_In; eauto.
Qed.
Lemma quiet_step M (checks : list (check M)) env m w w' : quiet env m w -> world_step checks env w w' -> quiet env m w'.
Proof.
  intros [Qs Qc Qt] [t w'' St|m' Em]; [|split; auto; eapply reach_step; eauto].
  unfold thread_step in St. destruct (nth_error (w_threads w) t) as [[a l]|] eqn:E; [|discriminate].
  pose proof Qt as Qt'. rewrite Forall_forall in Qt'. specialize (Qt' _ (nth_error_In _ _ E)). cbn in Qt'.
  destruct a as [|x rest|x b]; [|destruct Qt'|].
  - destruct l as [|[x|x b|x] r]; [discriminate| | |]; destruct (nth_error (w_caches w) x) as [c|] eqn:Ec; try discriminate;
      (assert (exists b, c = flag b) as (b' & ->) by (rewrite Forall_forall in Qc; apply Qc; eapply nth_error_In; eauto)).
    + rewrite flag_known in St. injection St as <-. split; cbn; auto. now apply Forall_set.
    + injection St as <-. split; cbn; auto; [apply Forall_set; eauto|now apply Forall_set].
    + injection St as <-. split; cbn; auto; [apply Forall_app; split; eauto|now apply Forall_set].
  - injection St as <-. split; cbn; auto; [apply Forall_set; eauto|now apply Forall_set].
Qed.
Theorem quiet_reach M (checks : list (check M)) env (m : M) caches requests w :
  Forall (fun c => exists b, c = flag b) caches ->
  reach (world_step checks env) (world_start m caches requests) w -> reach env m (w_store w).
Proof.
  intros C R. apply qu_store. induction R as [|w1 w2 _ IH St]; [|eapply quiet_step; eauto].
  split; cbn; auto; [apply reach_refl|]. apply Forall_map. apply Forall_forall. intros r _. exact Logic.I.
Qed.

(** ** Executions *)

Fixpoint play {M} (checks : list (check M)) (l : list (nat + M)) (w : world M) : option (world M) :=
  match l with
  | [] => Some w
  | inl t :: r => match thread_step checks t w with Some w' => play checks r w' | None => None end
  | inr m :: r => play checks r (change_store m w)
  end.
Lemma play_reach M (checks : list (check M)) (env : M -> M -> Prop) l : forall w0 w w', reach (world_step checks env) w0 w ->
  (forall m m', In (inr m') l -> env m m') -> play checks l w = Some w' -> reach (world_step checks env) w0 w'.
Proof.
  induction l as [|[t|m] l IH]; intros w0 w w' R Ev P; cbn in P.
  - now injection P as <-.
  - destruct (thread_step checks t w) as [w1|] eqn:E; [|discriminate]. eapply IH; [|intros; apply Ev; now right|exact P].
    eapply reach_step; [exact R|]. eapply step_thread; eauto.
  - eapply IH; [|intros; apply Ev; now right|exact P]. eapply reach_step; [exact R|]. apply step_env. apply Ev. now left.
Qed.

(** ** The constructors of datasets *)

Lemma set_last A (l : list A) x y : set_nth (length l) (l ++ [x]) y = l ++ [y].
Proof. induction l as [|a l IH]; cbn; [reflexivity|]. now rewrite IH. Qed.

Theorem own_handle_done M (checks : list (check M)) (m : M) caches given v w : given < length caches ->
  reach (world_step checks (fun _ _ => False)) (world_start m caches [own_handle given (length caches) v]) w ->
  w_threads w = [(AtIdle, [])] ->
  w_caches w = caches ++ [flag v] /\ w_store w = m /\ copy_of (w_log w) given (length caches).
Proof.
  intros G R. destruct (nth_error caches given) as [c|] eqn:Ec; [|apply nth_error_None in Ec; lia].
  set (e := LCopy 0 given (length caches)).
  assert (X : w = world_start m caches [own_handle given (length caches) v] \/
    w = World m (caches ++ [c]) [(AtIdle, [QSet (length caches) v])] [e] \/
    w = World m (caches ++ [flag v]) [(AtIdle, [])] [e]).
  { induction R as [|w1 w2 _ IH St]; [now left|]. destruct St as [t w2 St|? []].
    destruct IH as [-> |[-> | ->]]; destruct t as [|[|t]]; cbn in St; try discriminate.
    - rewrite Ec in St. injection St as <-. auto.
    - rewrite nth_error_app2, Nat.sub_diag in St by auto. cbn in St. injection St as <-. rewrite set_last. auto. }
  destruct X as [-> |[-> | ->]]; cbn; try discriminate. intros _. split; [reflexivity|]. split; [reflexivity|].
  eapply copy_step; [apply copy_self|]. left. reflexivity.
Qed.

(** ** Calls that throw *)

Theorem throw_keeps M (checks : list (check M)) (env : M -> M -> Prop) w w' t x e : world_step checks env w w' ->
  w_log w' = LAnswer t x (Throw e) :: w_log w -> w_caches w' = w_caches w.
Proof.
  assert (N : forall (a : happened) l, l <> a :: l).
  { intros a l E. apply (f_equal (@length _)) in E. cbn in E. lia. }
  intros [u w'' St|m _] L; [|reflexivity]. unfold thread_step in St.
  destruct (nth_error (w_threads w) u) as [[[|y rest|y b] l]|] eqn:E; [|destruct rest as [|c rest]| |discriminate].
  - destruct l as [|[y|y b|y] r]; [discriminate| | |]; destruct (nth_error (w_caches w) y) as [c|] eqn:Ec; try discriminate.
    + destruct (c <? 0)%Z; injection St as <-; reflexivity.
    + injection St as <-. cbn in L. now apply N in L.
    + injection St as <-. cbn in L. discriminate.
  - injection St as <-. reflexivity.
  - destruct (c (w_store w)) as [m [[|]|]]; injection St as <-; reflexivity.
  - injection St as <-. cbn in L. discriminate.
Qed.

(** The checks one after the other are what [s3_is_zarr_dataset] does in one piece. *)
Fixpoint all_checks {M} (checks : list (check M)) (m : M) : M * outcome bool :=
  match checks with
  | [] => (m, Ok false)
  | c :: r => match c m with (m', Some true) => (m', Ok true) | (m', Some false) => all_checks r m' | (m', None) => (m', Throw ERuntime) end
  end.
Lemma checks_whole h s : all_checks (s3_checks (sh_name h)) s = s3_is_zarr_dataset h s.
Proof.
  assert (O : forall k s, exists s' b, object_exists k s = (s', Ok b)).
  { intros k u. unfold object_exists. destruct (request _ _ u) as [u' [[b|]|]]; eauto. }
  assert (L : forall p s, exists s', any_with_prefix p s = (s', Throw ERuntime) \/ exists b, any_with_prefix p s = (s', Ok b)).
  { intros p u. unfold any_with_prefix, or_throw. destruct (request _ _ u) as [u' [b|]]; eauto. }
  unfold s3_checks, s3_is_zarr_dataset, s3_in, all_checks, as_check, abind, aret.
  destruct (O (join_key (sh_name h) ".zarray") s) as (s1 & [|] & E1); rewrite E1; [reflexivity|].
  destruct (L (join_key (sh_name h) ".zarray" ++ "/")%string s1) as (s2 & [E2|([|] & E2)]); rewrite E2; try reflexivity.
  destruct (O (join_key (sh_name h) "zarr.json") s2) as (s3' & [|] & E3); rewrite E3; [reflexivity|].
  destruct (L (join_key (sh_name h) "zarr.json" ++ "/")%string s3') as (s4 & [E4|([|] & E4)]); rewrite E4; reflexivity.
Qed.

Lemma fs_checks_whole d s : snd (all_checks (fs_checks d) s) = is_zarr_dataset s d.
Proof.
  unfold fs_checks, all_checks, is_zarr_dataset. destruct (fs_exists s d); [|reflexivity]. cbn [negb].
  destruct (fs_exists s (d ++ [".zarray"%string])); [reflexivity|]. now destruct (fs_exists s (d ++ ["zarr.json"%string])).
Qed.

(** ** Files *)

Theorem fs_asking d s0 v (env : fsys -> fsys -> Prop) caches requests w : fs_exists s0 d = true ->
  (v = true <-> fs_exists s0 (d ++ [".zarray"%string]) = true \/ fs_exists s0 (d ++ ["zarr.json"%string]) = true) ->
  (forall s s', env s s' -> forall p, In p [d; d ++ [".zarray"%string]; d ++ ["zarr.json"%string]] -> fs_exists s' p = fs_exists s p) ->
  Forall (fun c => c = unknown \/ c = flag v) caches ->
  (forall r x b, In r requests -> In (QSet x b) r -> b = v) ->
  reach (world_step (fs_checks d) env) (world_start s0 caches requests) w ->
  forall t x o, In (LAnswer t x o) (w_log w) -> o = Ok v.
Proof.
  intros D V Ev Cs Q Re.
  set (b1 := fs_exists s0 (d ++ [".zarray"%string])) in *. set (b2 := fs_exists s0 (d ++ ["zarr.json"%string])) in *.
  assert (Vb : existsb (fun b => b) [false; b1; b2] = v).
  { destruct b1, b2, v; cbn; auto; destruct V as [V1 V2]; try (destruct (V1 Logic.eq_refl); discriminate);
      symmetry; apply V2; auto. }
  rewrite <- Vb in *.
  set (K := fun s : fsys => forall p, In p [d; d ++ [".zarray"%string]; d ++ ["zarr.json"%string]] -> fs_exists s p = fs_exists s0 p).
  assert (Ke : forall m m', K m -> env m m' -> K m').
  { intros m m' Im E p I. rewrite (Ev _ _ E p I). auto. }
  assert (Kc : Forall2 (constant K) (fs_checks d) [false; b1; b2]).
  { constructor; [|constructor; [|constructor; [|constructor]]]; intros m Im; exists m; (split; [|exact Im]).
    - cbv beta. rewrite (Im d) by (cbn; auto). now rewrite D.
    - cbv beta. rewrite (Im (d ++ [".zarray"%string])) by (cbn; auto). reflexivity.
    - cbv beta. rewrite (Im (d ++ ["zarr.json"%string])) by (cbn; auto). reflexivity. }
  assert (K0 : K s0) by (intros p _; reflexivity).
  exact (@asking_reach _ (fs_checks d) env K [false; b1; b2] Ke Kc s0 caches requests w K0 Cs Q Re).
Qed.
