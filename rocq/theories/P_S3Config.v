(** The clients of handles: the cache, the mutex and the SDK. *)
From Coq Require Import Permutation Sorted Ascii.
From Verif Require Import M_Base M_Text M_Pool M_S3Config S_Pool S_S3Config P_Base P_Pool.
Import List ListNotations.
Local Open Scope list_scope.
Local Open Scope nat_scope.

(** ** The order of the keys *)
Lemma string_lt_trans a : forall b c, String.compare a b = Lt -> String.compare b c = Lt -> String.compare a c = Lt.
Proof.
  induction a as [|x a IH]; intros [|y b] [|z c]; cbn; try congruence.
  unfold Ascii.compare. destruct (N.compare_spec (N_of_ascii x) (N_of_ascii y)) as [E1|L1|L1]; try discriminate;
    destruct (N.compare_spec (N_of_ascii y) (N_of_ascii z)) as [E2|L2|L2]; try discriminate; intros H1 H2;
    destruct (N.compare_spec (N_of_ascii x) (N_of_ascii z)) as [E3|L3|L3]; try lia; try reflexivity. eauto.
Qed.
Lemma string_compare_refl a : String.compare a a = Eq.
Proof. pose proof (String.compare_antisym a a) as H. destruct (String.compare a a); [reflexivity|discriminate|discriminate]. Qed.

Lemma then_trans X A (pr : X -> A) (f : A -> A -> comparison) (g : X -> X -> comparison) :
  (forall a b, f a b = Eq -> a = b) -> (forall a, f a a = Eq) -> (forall a b c, f a b = Lt -> f b c = Lt -> f a c = Lt) ->
  (forall a b c, g a b = Lt -> g b c = Lt -> g a c = Lt) ->
  forall a b c, then_compare (f (pr a) (pr b)) (g a b) = Lt -> then_compare (f (pr b) (pr c)) (g b c) = Lt ->
    then_compare (f (pr a) (pr c)) (g a c) = Lt.
Proof.
  intros E R T G a b c H1 H2. destruct (f (pr a) (pr b)) eqn:E1; try discriminate; destruct (f (pr b) (pr c)) eqn:E2; try discriminate; cbn in *.
  - apply E in E1. apply E in E2. rewrite E1, E2, R. cbn. eauto.
  - apply E in E1. rewrite E1, E2. reflexivity.
  - apply E in E2. rewrite <- E2, E1. reflexivity.
  - rewrite (T _ _ _ E1 E2). reflexivity.
Qed.
Lemma bool_compare_eq a b : bool_compare a b = Eq -> a = b.
Proof. destruct a, b; cbn; congruence. Qed.
Lemma key_compare_trans a b c : key_compare a b = Lt -> key_compare b c = Lt -> key_compare a c = Lt.
Proof.
  unfold key_compare. revert a b c.
  refine (@then_trans _ _ se_endpoint String.compare _ String.compare_eq_iff string_compare_refl (fun a b c => @string_lt_trans a b c) _).
  refine (@then_trans _ _ se_region String.compare _ String.compare_eq_iff string_compare_refl (fun a b c => @string_lt_trans a b c) _).
  refine (@then_trans _ _ se_anon bool_compare _ bool_compare_eq _ _ _).
  - intros []; reflexivity.
  - intros [] [] []; cbn; congruence.
  - refine (@then_trans _ _ se_access String.compare _ String.compare_eq_iff string_compare_refl (fun a b c => @string_lt_trans a b c) _).
    intros a b c. apply string_lt_trans.
Qed.
Lemma key_compare_eq a b : key_compare a b = Eq -> a = b.
Proof.
  unfold key_compare. destruct a as [e r an ac se], b as [e' r' an' ac' se']. cbn.
  destruct (String.compare e e') eqn:E1; try discriminate. destruct (String.compare r r') eqn:E2; try discriminate.
  destruct (bool_compare an an') eqn:E3; try discriminate. destruct (String.compare ac ac') eqn:E4; try discriminate. cbn. intros E5.
  apply String.compare_eq_iff in E1, E2, E4, E5. apply bool_compare_eq in E3. now subst.
Qed.
Lemma key_compare_antisym a b : key_compare a b = CompOpp (key_compare b a).
Proof.
  unfold key_compare. rewrite (String.compare_antisym (se_endpoint a)), (String.compare_antisym (se_region a)),
    (String.compare_antisym (se_access a)), (String.compare_antisym (se_secret a)).
  assert (B : bool_compare (se_anon a) (se_anon b) = CompOpp (bool_compare (se_anon b) (se_anon a))) by (destruct (se_anon a), (se_anon b); reflexivity).
  rewrite B. destruct (String.compare (se_endpoint b) _); try reflexivity. destruct (String.compare (se_region b) _); try reflexivity.
  destruct (bool_compare (se_anon b) _); try reflexivity. destruct (String.compare (se_access b) _); reflexivity.
Qed.
Lemma key_lt_trans a b c : key_lt a b = true -> key_lt b c = true -> key_lt a c = true.
Proof.
  unfold key_lt. intros H1 H2. destruct (key_compare a b) eqn:E1; try discriminate. destruct (key_compare b c) eqn:E2; try discriminate.
  now rewrite (key_compare_trans E1 E2).
Qed.
Lemma key_lt_irrefl a : key_lt a a = false.
Proof. unfold key_lt. pose proof (key_compare_antisym a a) as H. destruct (key_compare a a); [reflexivity|discriminate|reflexivity]. Qed.
Lemma key_lt_total a b : key_lt a b = false -> key_lt b a = false -> a = b.
Proof.
  unfold key_lt. rewrite (key_compare_antisym b a). destruct (key_compare a b) eqn:E; cbn; try discriminate. intros _ _. now apply key_compare_eq.
Qed.

(** ** The cache *)
Definition sorted (c : cache) : Prop := StronglySorted (fun a b => key_lt (fst a) (fst b) = true) c.

Lemma find_in x id c : cache_find x c = Some id -> In (x, id) c.
Proof.
  induction c as [|[y i] c IH]; cbn; [discriminate|]. destruct (key_lt y x) eqn:E1; [intros H; right; auto|].
  destruct (key_lt x y) eqn:E2; [discriminate|]. intros [= <-]. rewrite (key_lt_total E2 E1). now left.
Qed.
Lemma in_find x id c : sorted c -> In (x, id) c -> cache_find x c = Some id.
Proof.
  intros S. induction S as [|[y i] c S IH HF]; [intros []|]. cbn [cache_find]. intros [H|H].
  - injection H as -> ->. now rewrite key_lt_irrefl.
  - rewrite Forall_forall in HF. pose proof (HF _ H) as L. cbn in L. rewrite L. auto.
Qed.
Lemma emplace_new x id c : cache_find x c = None -> Permutation ((x, id) :: c) (cache_emplace x id c).
Proof.
  induction c as [|[y i] c IH]; cbn [cache_find cache_emplace]; [intros _; apply Permutation_refl|].
  destruct (key_lt y x) eqn:E1; [|destruct (key_lt x y) eqn:E2; [intros _; apply Permutation_refl|discriminate]].
  intros H. eapply Permutation_trans; [apply perm_swap|]. apply perm_skip. auto.
Qed.
Lemma emplace_sorted x id c : sorted c -> sorted (cache_emplace x id c).
Proof.
  intros S. induction S as [|[y i] c S IH HF]; cbn [cache_emplace]; [repeat constructor|].
  destruct (key_lt y x) eqn:E1; [|destruct (key_lt x y) eqn:E2; [|now constructor]].
  - constructor; [exact IH|]. clear IH S. induction c as [|[z j] c IH]; cbn [cache_emplace]; [repeat constructor; exact E1|].
    apply Forall_cons_iff in HF as [H1 H2]. destruct (key_lt z x); [constructor; auto|]. destruct (key_lt x z); repeat constructor; auto.
  - constructor; [now constructor|]. constructor; [exact E2|]. eapply Forall_impl; [|exact HF]. intros a. cbn. apply key_lt_trans, E2.
Qed.

(** ** The SDK *)
Lemma sdk_app x es y es' z : sdk_run x es y -> sdk_run y es' z -> sdk_run x (es ++ es') z.
Proof. induction 1; intros; cbn; [assumption|]. econstructor; eauto. Qed.
Lemma sdk_nodup x es y : sdk_run x es y -> (forall l, x = On l -> NoDup l) -> forall l, y = On l -> NoDup l.
Proof.
  induction 1 as [|x e y es z St R IH]; [auto|]. intros H. apply IH. intros l ->. inversion St; subst.
  - constructor.
  - constructor; [assumption|]. now apply H.
  - eapply NoDup_remove_1. now apply H.
Qed.
Lemma destroy_all ids : forall live, Permutation live ids -> sdk_run (On live) (map EDestroy ids) (On []).
Proof.
  induction ids as [|i ids IH]; intros live P; cbn.
  - apply Permutation_sym, Permutation_nil in P. subst. constructor.
  - assert (In i live) as Hi by (eapply Permutation_in; [apply Permutation_sym, P|now left]).
    apply in_split in Hi as (l1 & l2 & ->). econstructor; [constructor|]. apply IH.
    apply (Permutation_cons_inv (a := i)). eapply Permutation_trans; [apply Permutation_middle|exact P].
Qed.

(** ** The invariant *)
Definition inside (a : at_line) : bool :=
  match a with AtFind _ | AtMake _ | AtEmplace _ _ => true | _ => false end.
Definition level (a : at_line) : nat :=
  match a with AtIdle | AtApi _ => 0 | AtStatics _ => 1 | _ => 2 end.
Definition held_id (a : at_line) : list nat := match a with AtEmplace _ id => [id] | _ => [] end.
Definition pend (m : option nat) (l : list (at_line * list request)) : list nat :=
  match m with
  | Some t => match nth_error l t with Some (a, _) => held_id a | None => [] end
  | None => []
  end.
Definition pending (p : process) : list nat := pend (pr_mutex p) (pr_threads p).
Definition created (es : list event) : list nat := flat_map (fun e => match e with ECreate id _ => [id] | _ => [] end) es.

Record inv (p : process) : Prop := {
  v_sorted : sorted (pr_cache p);
  v_mutex : forall t a rs, nth_error (pr_threads p) t = Some (a, rs) -> (inside a = true <-> pr_mutex p = Some t);
  v_owner : forall t, pr_mutex p = Some t -> nth_error (pr_threads p) t <> None;
  v_make : forall t x rs, nth_error (pr_threads p) t = Some (AtMake x, rs) -> cache_find x (pr_cache p) = None;
  v_emplace : forall t x id rs, nth_error (pr_threads p) t = Some (AtEmplace x id, rs) ->
    cache_find x (pr_cache p) = None /\ In (ECreate id (configured x)) (pr_events p);
  v_cache : forall x id, In (x, id) (pr_cache p) -> In (ECreate id (configured x)) (pr_events p);
  v_log : forall t x id, In (t, RClient x, Some id) (pr_log p) -> In (x, id) (pr_cache p);
  v_statics : pr_statics p = [] \/ pr_statics p = [SApi] \/ pr_statics p = [SCache; SApi];
  v_level : forall t a rs, nth_error (pr_threads p) t = Some (a, rs) -> level a <= length (pr_statics p);
  v_filled : pr_cache p <> [] -> length (pr_statics p) = 2;
  v_off : pr_statics p = [] -> pr_events p = [];
  v_on : pr_statics p <> [] -> exists live, sdk_run Off (pr_events p) (On live) /\ Permutation live (map snd (pr_cache p) ++ pending p);
  v_fresh : Forall (fun i => i < pr_next p) (created (pr_events p));
  v_unique : NoDup (created (pr_events p))
}.

Lemma created_app a b : created (a ++ b) = created a ++ created b.
Proof. apply flat_map_app. Qed.
Lemma created_in id c es : In (ECreate id c) es -> In id (created es).
Proof. intros H. apply in_flat_map. exists (ECreate id c). split; [exact H|now left]. Qed.
Lemma created_once es : NoDup (created es) -> forall id c c', In (ECreate id c) es -> In (ECreate id c') es -> c = c'.
Proof.
  induction es as [|e es IH]; [intros _ id c c' []|]. intros ND id c c' [->|H] [E|H'].
  - now injection E.
  - cbn in ND. apply NoDup_cons_iff in ND as [N _]. destruct N. eapply created_in; eauto.
  - subst e. cbn in ND. apply NoDup_cons_iff in ND as [N _]. destruct N. eapply created_in; eauto.
  - apply (IH ltac:(destruct e; cbn in ND; [exact ND|now apply NoDup_cons_iff in ND|exact ND|exact ND]) id); assumption.
Qed.

Lemma sdk_live es : forall x y, sdk_run x es y -> forall l, y = On l -> forall l0, (x = On l0 \/ (x = Off /\ l0 = [])) ->
  forall i, In i l -> In i l0 \/ In i (created es).
Proof.
  induction es as [|e es IH]; intros x y R l -> l0 Hx i Hi; inversion R as [|? ? y' ? ? St R']; subst.
  - destruct Hx as [[= ->]|[[=] _]]. now left.
  - inversion St; subst.
    + destruct Hx as [[=]|[_ ->]]. destruct (IH _ _ R' _ eq_refl [] (or_introl eq_refl) i Hi); auto.
    + destruct Hx as [[= ->]|[[=] _]]. destruct (IH _ _ R' _ eq_refl _ (or_introl eq_refl) i Hi) as [[->|X]|X]; cbn; auto.
    + destruct Hx as [[= <-]|[[=] _]]. destruct (IH _ _ R' _ eq_refl _ (or_introl eq_refl) i Hi) as [X|X]; [left|now right].
      apply in_app_iff in X. apply in_app_iff. cbn. tauto.
    + inversion R' as [|? ? ? ? ? St' _]; subst. inversion St'.
Qed.

Lemma inv_start threads : inv (process_start threads).
Proof.
  assert (H : forall t a rs, nth_error (pr_threads (process_start threads)) t = Some (a, rs) -> a = AtIdle).
  { intros t a rs H. cbn in H. apply nth_error_In in H. apply in_map_iff in H as (y & [= <- _] & _). reflexivity. }
  constructor; cbn [process_start pr_cache pr_mutex pr_statics pr_events pr_log pr_next]; try tauto; try discriminate; try (constructor; fail).
  - intros t a rs Hn. rewrite (H _ _ _ Hn). cbn. split; discriminate.
  - intros t x id rs Hn. pose proof (H _ _ _ Hn). discriminate.
  - intros t a rs Hn. rewrite (H _ _ _ Hn). cbn. lia.
Qed.

(** Steps of thread [t] that do not touch the mutex. *)
Lemma same_mutex p t a rs a' rs' : nth_error (pr_threads p) t = Some (a, rs) -> inside a' = inside a ->
  (forall t a rs, nth_error (pr_threads p) t = Some (a, rs) -> (inside a = true <-> pr_mutex p = Some t)) ->
  forall u b qs, nth_error (set_nth t (pr_threads p) (a', rs')) u = Some (b, qs) -> (inside b = true <-> pr_mutex p = Some u).
Proof.
  intros H E V u b qs Hu. apply nth_error_set in Hu as [(-> & [= -> ->] & _)|(_ & Hu)]; [rewrite E; eauto|eauto].
Qed.
Lemma set_owner A (l : list A) t v u : nth_error l u <> None -> nth_error (set_nth t l v) u <> None.
Proof. rewrite !nth_error_Some, set_nth_length. auto. Qed.
Lemma not_inside_others p t a rs : inv p -> nth_error (pr_threads p) t = Some (a, rs) -> inside a = true ->
  forall u b qs, nth_error (pr_threads p) u = Some (b, qs) -> u <> t -> inside b = false.
Proof.
  intros I H Hi u b qs Hu Hn. destruct (inside b) eqn:E; [|reflexivity]. apply (v_mutex I Hu) in E. apply (v_mutex I H) in Hi. congruence.
Qed.

Lemma pend_set m l t a rs a' rs' : nth_error l t = Some (a, rs) -> held_id a' = held_id a -> pend m (set_nth t l (a', rs')) = pend m l.
Proof.
  intros H E. destruct m as [u|]; [|reflexivity]. cbn. destruct (Nat.eq_dec u t) as [->|N].
  - rewrite set_nth_same by (apply nth_error_Some; congruence). now rewrite H.
  - now rewrite set_nth_other by auto.
Qed.
Lemma pend_at l t a rs : nth_error l t = Some (a, rs) -> pend (Some t) l = held_id a.
Proof. intros H. cbn. now rewrite H. Qed.

(** The threads after a step in which thread [t] goes on to [a'] and the mutex becomes [m']. *)
Lemma step_mutex p t a rs a' rs' m' : inv p -> nth_error (pr_threads p) t = Some (a, rs) ->
  (inside a = false -> pr_mutex p = m' /\ inside a' = false \/ pr_mutex p = None /\ m' = Some t /\ inside a' = true) ->
  (inside a = true -> m' = Some t /\ inside a' = true \/ m' = None /\ inside a' = false) ->
  (forall u b qs, nth_error (set_nth t (pr_threads p) (a', rs')) u = Some (b, qs) -> (inside b = true <-> m' = Some u)) /\
  (forall u, m' = Some u -> nth_error (set_nth t (pr_threads p) (a', rs')) u <> None).
Proof.
  intros I H H0 H1. assert (Ht : nth_error (pr_threads p) t <> None) by congruence. split.
  - intros u b qs Hu. apply nth_error_set in Hu as [(-> & [= -> ->] & _)|(Hn & Hu)].
    + destruct (inside a) eqn:Ea.
      * destruct (H1 eq_refl) as [[-> ->]|[-> ->]]; split; congruence.
      * destruct (H0 eq_refl) as [[<- ->]|(_ & -> & ->)]; [|split; congruence].
        rewrite <- (v_mutex I H), Ea. tauto.
    + destruct (inside a) eqn:Ea.
      * rewrite (not_inside_others I H Ea Hu Hn). destruct (H1 eq_refl) as [[-> _]|[-> _]]; split; congruence.
      * destruct (H0 eq_refl) as [[<- _]|(E & -> & _)]; [apply (v_mutex I Hu)|].
        rewrite (v_mutex I Hu), E. split; congruence.
  - intros u ->. apply set_owner. destruct (inside a) eqn:Ea.
    + destruct (H1 eq_refl) as [[[= ->] _]|[? _]]; [exact Ht|discriminate].
    + destruct (H0 eq_refl) as [[E _]|(_ & [= ->] & _)]; [exact (v_owner I E)|exact Ht].
Qed.

Ltac other H := apply nth_error_set in H as [(-> & E & _)|(_ & H)]; [try discriminate E|].

Lemma statics_cases p : inv p ->
  (constructed SApi p = match pr_statics p with [] => false | _ => true end) /\
  (constructed SCache p = match pr_statics p with [_; _] => true | _ => false end).
Proof. intros I. unfold constructed. destruct (v_statics I) as [-> |[-> | ->]]; split; reflexivity. Qed.

Lemma inv_step t p p' : inv p -> process_step t p p' -> inv p'.
Proof.
  intros I St. destruct (statics_cases I) as [CA CC].
  destruct St as [r rest H|r rest H|x rest H|x rest H Hm|x rest id H Hf|x rest H Hf|x rest H|x rest H|x rest id H];
    pose proof (v_level I H) as LV; cbn [level] in LV.
  - destruct (@step_mutex p t _ _ (AtApi r) rest (pr_mutex p) I H) as [M1 M2]; [cbn; auto|discriminate|].
    destruct I. constructor; cbn [pr_cache pr_mutex pr_statics pr_events pr_log pr_next pr_threads]; auto.
    + intros u y qs Hu. other Hu. eauto.
    + intros u y i qs Hu. other Hu. eauto.
    + intros u b qs Hu. other Hu; [injection E as -> ->; cbn; lia|eauto].
    + intros NE. unfold pending. cbn. rewrite (pend_set _ _ H) by reflexivity. exact (v_on0 NE).
  - set (a' := match r with RHandle => AtIdle | RClient x => AtStatics x end).
    assert (IA : inside a' = false) by (unfold a'; destruct r; reflexivity).
    assert (HA : held_id a' = []) by (unfold a'; destruct r; reflexivity).
    assert (LA : level a' <= 1) by (unfold a'; destruct r; cbn; lia).
    destruct (@step_mutex p t _ _ (a') rest (pr_mutex p) I H) as [M1 M2]; [auto|discriminate|].
    assert (NA : forall y, a' <> AtMake y) by (unfold a'; destruct r; discriminate).
    assert (NB : forall y i, a' <> AtEmplace y i) by (unfold a'; destruct r; discriminate).
    assert (LG : forall u y id, In (u, RClient y, Some id) (match r with RHandle => pr_log p ++ [(t, r, None)] | RClient _ => pr_log p end) -> In (u, RClient y, Some id) (pr_log p)).
    { intros u y id. destruct r; [|auto]. intros X. apply in_app_iff in X as [X|[X|[]]]; [exact X|discriminate]. }
    rewrite CA.
    destruct I. constructor; cbn [pr_cache pr_mutex pr_statics pr_events pr_log pr_next pr_threads]; fold a'; auto.
    + intros u y qs Hu. other Hu; [injection E as E _; exfalso; eapply NA; eauto|eauto].
    + intros u y i qs Hu. other Hu; [injection E as E _; exfalso; eapply NB; eauto|].
      destruct (v_emplace0 _ _ _ _ Hu) as [X Y]. split; [exact X|]. destruct (pr_statics p); [apply in_app_iff; now left|exact Y].
    + intros y id Hy. destruct (pr_statics p); [apply in_app_iff; left|]; auto.
    + intros u y id Hy. eauto.
    + destruct v_statics0 as [-> |[-> | ->]]; auto.
    + intros u b qs Hu. assert (L : length (pr_statics p) <= length (match pr_statics p with [] => SApi :: pr_statics p | _ => pr_statics p end) /\
        1 <= length (match pr_statics p with [] => SApi :: pr_statics p | _ => pr_statics p end)) by (destruct (pr_statics p); cbn; lia).
      assert (E0 : (if match pr_statics p with [] => false | _ => true end then pr_statics p else SApi :: pr_statics p) =
        match pr_statics p with [] => SApi :: pr_statics p | _ => pr_statics p end) by (destruct (pr_statics p); reflexivity).
      rewrite E0. other Hu; [injection E as -> ->; lia|]. specialize (v_level0 _ _ _ Hu). lia.
    + intros NE. specialize (v_filled0 NE). destruct (pr_statics p); [discriminate|exact v_filled0].
    + destruct (pr_statics p); [discriminate|]. intros X; discriminate X.
    + intros _. unfold pending. cbn. rewrite (pend_set _ _ H) by exact HA. destruct (pr_statics p) as [|s0 ss] eqn:ES.
      * rewrite (v_off0 eq_refl). exists []. split; [repeat econstructor|].
        assert (EC : pr_cache p = []) by (destruct (pr_cache p); [reflexivity|specialize (v_filled0 ltac:(discriminate)); discriminate]).
        rewrite EC. cbn. destruct (pr_mutex p) as [u|] eqn:EM; [|constructor]. cbn.
        destruct (nth_error (pr_threads p) u) as [[b qs]|] eqn:EU; [|constructor]. specialize (v_level0 _ _ _ EU). destruct b; cbn in *; try constructor; lia.
      * apply v_on0. discriminate.
    + destruct (pr_statics p); [rewrite created_app, app_nil_r|]; auto.
    + destruct (pr_statics p); [rewrite created_app, app_nil_r|]; auto.
  - destruct (@step_mutex p t _ _ (AtLock x) rest (pr_mutex p) I H) as [M1 M2]; [cbn; auto|discriminate|].
    rewrite CC. destruct I. constructor; cbn [pr_cache pr_mutex pr_statics pr_events pr_log pr_next pr_threads]; auto.
    + intros u y qs Hu. other Hu. eauto.
    + intros u y i qs Hu. other Hu. eauto.
    + destruct v_statics0 as [E0 |[E0 | E0]]; rewrite E0 in *; auto. cbn in LV. lia.
    + intros u b qs Hu. destruct v_statics0 as [E0 |[E0 | E0]]; rewrite E0 in *; [cbn in LV; lia| |];
        (other Hu; [injection E as -> ->; cbn; lia|specialize (v_level0 _ _ _ Hu); cbn in *; lia]).
    + intros NE. specialize (v_filled0 NE). destruct v_statics0 as [E0 |[E0 | E0]]; rewrite E0 in *; try discriminate. reflexivity.
    + destruct v_statics0 as [E0 |[E0 | E0]]; rewrite E0 in *; try discriminate.
    + intros _. unfold pending. cbn. rewrite (pend_set _ _ H) by reflexivity. apply v_on0. intros E0. rewrite E0 in LV. cbn in LV. lia.
  - destruct (@step_mutex p t _ _ (AtFind x) rest (Some t) I H) as [M1 M2]; [auto|discriminate|].
    destruct I. constructor; cbn [pr_cache pr_mutex pr_statics pr_events pr_log pr_next pr_threads]; auto.
    + intros u y qs Hu. other Hu. eauto.
    + intros u y i qs Hu. other Hu. eauto.
    + intros u b qs Hu. other Hu; [injection E as -> ->; cbn; lia|eauto].
    + intros NE. destruct (v_on0 NE) as (live & R & P). exists live. split; [exact R|].
      unfold pending in *. cbn [pr_mutex pr_threads]. rewrite (pend_set _ _ H) by reflexivity. rewrite (pend_at H). rewrite Hm in P. exact P.
  - destruct (@step_mutex p t _ _ (AtIdle) rest (None) I H) as [M1 M2]; [discriminate|auto|].
    assert (Hm : pr_mutex p = Some t) by now apply (v_mutex I H).
    destruct I. constructor; cbn [pr_cache pr_mutex pr_statics pr_events pr_log pr_next pr_threads]; auto.
    + intros u y qs Hu. other Hu. eauto.
    + intros u y i qs Hu. other Hu. eauto.
    + intros u y i X. apply in_app_iff in X as [X|[X|[]]]; [eauto|]. injection X as -> -> ->. now apply find_in.
    + intros u b qs Hu. other Hu; [injection E as -> ->; cbn; lia|eauto].
    + intros NE. destruct (v_on0 NE) as (live & R & P). exists live. split; [exact R|].
      unfold pending in *. cbn [pr_mutex pr_threads pend]. rewrite Hm, (pend_at H) in P. exact P.
  - destruct (@step_mutex p t _ _ (AtMake x) rest (pr_mutex p) I H) as [M1 M2]; [discriminate| |].
    { intros _. left. split; [now apply (v_mutex I H)|reflexivity]. }
    destruct I. constructor; cbn [pr_cache pr_mutex pr_statics pr_events pr_log pr_next pr_threads]; auto.
    + intros u y qs Hu. other Hu; [injection E as -> ->; exact Hf|eauto].
    + intros u y i qs Hu. other Hu. eauto.
    + intros u b qs Hu. other Hu; [injection E as -> ->; cbn; lia|eauto].
    + intros NE. unfold pending. cbn [pr_mutex pr_threads]. rewrite (pend_set _ _ H) by reflexivity. exact (v_on0 NE).
  - destruct (@step_mutex p t _ _ (AtEmplace x (pr_next p)) rest (pr_mutex p) I H) as [M1 M2]; [discriminate| |].
    { intros _. left. split; [now apply (v_mutex I H)|reflexivity]. }
    assert (Hm : pr_mutex p = Some t) by now apply (v_mutex I H).
    destruct I. constructor; cbn [pr_cache pr_mutex pr_statics pr_events pr_log pr_next pr_threads]; auto.
    + intros u y qs Hu. other Hu. eauto.
    + intros u y i qs Hu. other Hu.
      * injection E as -> -> ->. split; [eauto|]. apply in_app_iff. right. now left.
      * destruct (v_emplace0 _ _ _ _ Hu) as [X Y]. split; [exact X|]. apply in_app_iff. now left.
    + intros y i Hy. apply in_app_iff. left. auto.
    + intros u b qs Hu. other Hu; [injection E as -> ->; cbn; lia|eauto].
    + intros E0. rewrite E0 in LV. cbn in LV. lia.
    + intros NE. destruct (v_on0 NE) as (live & R & P). exists (pr_next p :: live). split.
      * eapply sdk_app; [exact R|]. econstructor; [|constructor]. constructor. intros Hi.
        destruct (sdk_live R eq_refl (l0 := []) (or_intror (conj eq_refl eq_refl)) Hi) as [[]|X].
        rewrite Forall_forall in v_fresh0. specialize (v_fresh0 _ X). lia.
      * unfold pending in *. cbn [pr_mutex pr_threads]. rewrite Hm in *. rewrite (pend_at H) in P. cbn [held_id] in P. rewrite app_nil_r in P.
        cbn [pend]. rewrite set_nth_same by (apply nth_error_Some; congruence). cbn [held_id].
        eapply Permutation_trans; [apply perm_skip, P|]. apply Permutation_cons_append.
    + rewrite created_app. apply Forall_app. split; [eapply Forall_impl; [|exact v_fresh0]; cbn; lia|]. cbn. repeat constructor.
    + rewrite created_app. cbn. apply (NoDup_Add (Add_app _ _ [])); rewrite app_nil_r; split; [exact v_unique0|]. intros X.
      rewrite Forall_forall in v_fresh0. specialize (v_fresh0 _ X). lia.
  - destruct (@step_mutex p t _ _ (AtIdle) rest (None) I H) as [M1 M2]; [discriminate|auto|].
    assert (Hm : pr_mutex p = Some t) by now apply (v_mutex I H).
    destruct I. constructor; cbn [pr_cache pr_mutex pr_statics pr_events pr_log pr_next pr_threads]; auto.
    + intros u y qs Hu. other Hu. eauto.
    + intros u y i qs Hu. other Hu. eauto.
    + intros u y i X. apply in_app_iff in X as [X|[X|[]]]; [eauto|discriminate].
    + intros u b qs Hu. other Hu; [injection E as -> ->; cbn; lia|eauto].
    + intros NE. destruct (v_on0 NE) as (live & R & P). exists live. split; [exact R|].
      unfold pending in *. cbn [pr_mutex pr_threads pend]. rewrite Hm, (pend_at H) in P. exact P.
  - destruct (@step_mutex p t _ _ (AtIdle) rest (None) I H) as [M1 M2]; [discriminate|auto|].
    assert (Hm : pr_mutex p = Some t) by now apply (v_mutex I H).
    pose proof (not_inside_others I H eq_refl) as NI.
    destruct I. destruct (v_emplace0 _ _ _ _ H) as [Hf Hc]. rewrite Hf. pose proof (emplace_new id Hf) as PE.
    pose proof (@emplace_sorted x id _ v_sorted0) as SE.
    assert (HIn : In (x, id) (cache_emplace x id (pr_cache p))) by (eapply Permutation_in; [exact PE|now left]).
    rewrite (in_find SE HIn).
    constructor; cbn [pr_cache pr_mutex pr_statics pr_events pr_log pr_next pr_threads]; auto.
    + intros u y qs Hu. apply nth_error_set in Hu as [(-> & E & _)|(Hn & Hu)]; [discriminate|]. discriminate (NI _ _ _ Hu Hn).
    + intros u y i qs Hu. apply nth_error_set in Hu as [(-> & E & _)|(Hn & Hu)]; [discriminate|]. discriminate (NI _ _ _ Hu Hn).
    + intros y i Hy. eapply Permutation_in in Hy; [|apply Permutation_sym, PE]. destruct Hy as [[= <- <-]|Hy]; auto.
    + intros u y i X. apply in_app_iff in X as [X|[X|[]]].
      * eapply Permutation_in; [exact PE|]. right. eauto.
      * injection X as -> -> ->. exact HIn.
    + intros u b qs Hu. other Hu; [injection E as -> ->; cbn; lia|eauto].
    + intros _. destruct v_statics0 as [E0 |[E0 | E0]]; rewrite E0 in *; cbn in *; lia.
    + intros NE. destruct (v_on0 NE) as (live & R & P). exists live. split; [exact R|].
      unfold pending in *. cbn [pr_mutex pr_threads pend]. rewrite Hm, (pend_at H) in P. cbn [held_id] in P. rewrite app_nil_r.
      eapply Permutation_trans; [exact P|]. eapply Permutation_trans; [apply Permutation_sym, Permutation_cons_append|].
      apply (Permutation_map snd) in PE. exact PE.
Qed.

Lemma inv_reachable threads p : reach some_step (process_start threads) p -> inv p.
Proof. induction 1 as [|p p' H IH [t St]]; [apply inv_start|]. eapply inv_step; eauto. Qed.

(** ** Results *)
Section Runs.
Variables (threads : list (list request)) (p : process).
Hypothesis run : reach some_step (process_start threads) p.

Theorem client_of t x id : In (t, RClient x, Some id) (pr_log p) ->
  In (ECreate id (configured x)) (pr_events p) /\ forall c, In (ECreate id c) (pr_events p) -> c = configured x.
Proof.
  pose proof (inv_reachable run) as I. intros H. apply (v_log I) in H. apply (v_cache I) in H. split; [exact H|].
  intros c Hc. exact (created_once (v_unique I) Hc H).
Qed.
Theorem clients_shared t x i u y j : In (t, RClient x, Some i) (pr_log p) -> In (u, RClient y, Some j) (pr_log p) -> (i = j <-> x = y).
Proof.
  pose proof (inv_reachable run) as I. intros H1 H2. apply (v_log I) in H1. apply (v_log I) in H2. split.
  - intros <-. assert (NE : pr_statics p <> []).
    { assert (pr_cache p <> []) as E by (intros E; rewrite E in H1; destruct H1). apply (v_filled I) in E. intros X. rewrite X in E. discriminate. }
    destruct (v_on I NE) as (live & R & P). pose proof (sdk_nodup R ltac:(discriminate) eq_refl) as ND.
    apply (Permutation_NoDup P) in ND. generalize dependent (pending p). intros q _ ND. clear - H1 H2 ND.
    induction (pr_cache p) as [|[z k] c IH]; [destruct H1|]. cbn in ND. apply NoDup_cons_iff in ND as [N ND].
    destruct H1 as [[= -> ->]|H1], H2 as [E|H2]; [now injection E|exfalso|exfalso|auto].
    + apply N. apply in_app_iff. left. apply in_map_iff. exists (y, i). auto.
    + injection E as -> ->. apply N. apply in_app_iff. left. apply in_map_iff. exists (x, i). auto.
  - intros <-. apply (in_find (v_sorted I)) in H1. apply (in_find (v_sorted I)) in H2. congruence.
Qed.
Theorem sdk_used : all_returned p -> exit_events p = [] \/ sdk_run Off (exit_events p) Down.
Proof.
  pose proof (inv_reachable run) as I. intros D. unfold exit_events. assert (pr_statics p = [] \/ pr_statics p <> []) as [E|NE] by (destruct (pr_statics p); [left|right]; congruence).
  - left. rewrite E. cbn. rewrite app_nil_r. exact (v_off I E).
  - right. destruct (v_on I NE) as (live & R & P). eapply sdk_app; [exact R|].
    assert (PN : pending p = []).
    { unfold pending. destruct (pr_mutex p) as [u|]; [|reflexivity]. cbn. destruct (nth_error (pr_threads p) u) as [[a qs]|] eqn:EU; [|reflexivity].
      apply nth_error_In in EU. unfold all_returned in D. rewrite Forall_forall in D. specialize (D _ EU). injection D as -> _. reflexivity. }
    rewrite PN, app_nil_r in P. destruct (v_statics I) as [E|[E|E]]; [contradiction| |]; rewrite E; cbn [flat_map destroyed].
    + assert (EC : pr_cache p = []).
      { destruct (pr_cache p) eqn:EC; [reflexivity|]. assert (N2 : pr_cache p <> []) by congruence. apply (v_filled I) in N2. rewrite E in N2. discriminate. }
      rewrite EC in P. apply Permutation_sym, Permutation_nil in P. subst. repeat econstructor.
    + rewrite app_nil_r. eapply sdk_app; [|repeat econstructor]. rewrite <- (map_map snd EDestroy). apply destroy_all, P.
Qed.
Theorem no_deadlock : all_returned p \/ exists p', some_step p p'.
Proof.
  pose proof (inv_reachable run) as I.
  assert (G : forall t a rs, nth_error (pr_threads p) t = Some (a, rs) -> inside a = true -> exists p', some_step p p').
  { intros t a rs H Hi. destruct a; try discriminate.
    - destruct (cache_find x (pr_cache p)) eqn:E; eexists; exists t; [eapply step_found|eapply step_missing]; eauto.
    - eexists; exists t. eapply step_make; eauto.
    - eexists; exists t. eapply step_emplace; eauto. }
  destruct (pr_mutex p) as [t|] eqn:EM.
  - right. pose proof (v_owner I EM) as N. destruct (nth_error (pr_threads p) t) as [[a rs]|] eqn:E; [|congruence].
    eapply G; [exact E|]. now apply (v_mutex I E).
  - assert (DD : forall l, (forall x, In x l -> In x (pr_threads p)) -> Forall (fun t => t = (AtIdle, [])) l \/ exists a rs, In (a, rs) l /\ (a, rs) <> (AtIdle, [])).
    { induction l as [|[a rs] l IH]; intros Hl; [left; constructor|]. destruct IH as [F|(a' & rs' & H1 & H2)]; [intros; apply Hl; now right| |].
      - destruct a; [destruct rs; [left; now constructor|]| | | | | |]; (right; do 2 eexists; split; [now left|discriminate]).
      - right. exists a', rs'. split; [now right|exact H2]. }
    destruct (DD _ (fun _ H => H)) as [F|(a & rs & H1 & H2)]; [left; exact F|right].
    apply In_nth_error in H1 as [t H1]. destruct a.
    + destruct rs as [|r rs]; [congruence|]. eexists; exists t. eapply step_start; eauto.
    + eexists; exists t. eapply step_api; eauto.
    + eexists; exists t. eapply step_statics; eauto.
    + eexists; exists t. eapply step_lock; eauto.
    + eapply G; eauto.
    + eapply G; eauto.
    + eapply G; eauto.
Qed.
End Runs.

Definition thread_work (a : at_line * list request) : nat :=
  7 * length (snd a) + match fst a with AtIdle => 0 | AtApi _ => 6 | AtStatics _ => 5 | AtLock _ => 4 | AtFind _ => 3 | AtMake _ => 2 | AtEmplace _ _ => 1 end.
Definition work (p : process) : nat := list_sum (map thread_work (pr_threads p)).
Lemma work_set l : forall t a v, nth_error l t = Some a -> thread_work v < thread_work a ->
  list_sum (map thread_work (set_nth t l v)) < list_sum (map thread_work l).
Proof.
  induction l as [|b l IH]; intros [|t] a v H L; try discriminate.
  - injection H as ->. cbn [set_nth map list_sum fold_right]. fold (list_sum (map thread_work l)). lia.
  - cbn [nth_error] in H. specialize (IH t a v H L). cbn [set_nth map list_sum fold_right]. unfold list_sum in *. lia.
Qed.
Lemma work_less p p' : some_step p p' -> work p' < work p.
Proof.
  intros [t St]. destruct St; unfold work; cbn [pr_threads]; (eapply work_set; [eassumption|]); unfold thread_work; cbn; try lia.
  destruct r; cbn; lia.
Qed.
Theorem requests_end threads : Acc (fun q p => some_step p q) (process_start threads).
Proof.
  generalize (process_start threads). intros p. remember (work p) as n eqn:E. assert (L : work p <= n) by lia. clear E. revert p L.
  induction n as [|n IH]; intros p L; constructor; intros q St; apply work_less in St; [lia|]. apply IH. lia.
Qed.

(** ** Handles *)
Lemma string_app_assoc a b c : ((a ++ b) ++ c = a ++ (b ++ c))%string.
Proof. induction a as [|x a IH]; cbn; [reflexivity|now rewrite IH]. Qed.
Lemma concat_two a b l : String.concat "/" (a :: b :: l) = String.concat "/" ((a ++ "/" ++ b)%string :: l).
Proof. destruct l as [|c l]; cbn [String.concat]; [reflexivity|]. now rewrite !string_app_assoc. Qed.
Lemma app_not_empty a b : b <> ""%string -> (a ++ b)%string <> ""%string.
Proof. destruct a; [auto|discriminate]. Qed.

Lemma descendant_name keys : forall x, ~ In ""%string keys ->
  sh_name (fold_left group_handle keys x) = String.concat "/" (if is_empty (sh_name x) then keys else sh_name x :: keys).
Proof.
  induction keys as [|k keys IH]; intros x H; cbn [fold_left].
  - destruct (sh_name x); reflexivity.
  - rewrite IH by (intros X; apply H; now right). assert (K : k <> ""%string) by (intros ->; apply H; now left).
    cbn [group_handle sh_name]. destruct (sh_name x) as [|c n] eqn:E; [cbn [String.eqb is_empty]; destruct k; [congruence|reflexivity]|].
    change (String.eqb (String c n) "") with false. cbn iota. cbn [is_empty String.append]. 
    symmetry. exact (concat_two (String c n) k keys).
Qed.
Theorem descendants x keys : let h := fold_left group_handle keys x in
  sh_bucket h = sh_bucket x /\ sh_settings h = sh_settings x /\
  (~ In ""%string keys ->
     sh_name h = String.concat "/" (if is_empty (sh_name x) then keys else sh_name x :: keys)) /\
  (forall key, dataset_handle h key = group_handle h key) /\
  (forall key chunk, sh_bucket (chunk_object (dataset_handle h key) chunk) = sh_bucket x /\
     sh_settings (chunk_object (dataset_handle h key) chunk) = sh_settings x).
Proof.
  cbv zeta. assert (A : sh_bucket (fold_left group_handle keys x) = sh_bucket x /\ sh_settings (fold_left group_handle keys x) = sh_settings x).
  { revert x. induction keys as [|k keys IH]; intros x; [auto|]. cbn [fold_left]. exact (IH (group_handle x k)). }
  destruct A as [A1 A2]. split; [exact A1|]. split; [exact A2|]. split; [apply descendant_name|]. split; [reflexivity|].
  intros key chunk. cbn. auto.
Qed.
