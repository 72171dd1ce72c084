(** Proofs about the inherited calls of AttributeManager. *)
From Coq Require Import String Lia.
From Verif Require Import M_Base M_Json M_Mode M_Fs M_Attributes S_Attributes P_Attributes M_PyGroup S_PyGroup P_PyGroup9
  M_PyAttrs.
Import ListNotations.
Local Open Scope list_scope.

Section Attrs.
  Variables (k : hkind) (m : mode) (p : path) (v z : bool).
  Let am := AttrManager k m p.
  Let prot := protected k z.
  Hypothesis W : can_write m = true.

  Definition elsewhere (s s' : fsys) : Prop := forall q, q <> p ++ [attr_file v z] -> s' q = s q.

  Lemma del_step s l a : attr_node k s p v z -> py_attrs s am = Ok l ->
    attr_node k (fst (py_attr_del am a s)) p v z /\ elsewhere s (fst (py_attr_del am a s)) /\
    exists l', py_attrs (fst (py_attr_del am a s)) am = Ok l' /\
      if existsb (String.eqb a) prot
      then is_ok (snd (py_attr_del am a s)) = false /\ forall b, jlookup b l' = jlookup b l
      else is_ok (snd (py_attr_del am a s)) = true /\ forall b, jlookup b l' = if String.eqb b a then None else jlookup b l.
  Proof.
    intros A R.
    destruct (@one_step k m p v z s (fun b => jlookup b l) (ARemove a) W A (ex_intro _ l (conj R (fun b => eq_refl))) Logic.I) as [A2 H].
    assert (F : Forall aop_ok [ARemove a]) by (constructor; [exact Logic.I|constructor]).
    destruct (@api_run_ok k m p v z W [ARemove a] s A F) as [_ [FR _]].
    cbn [api_run run_aop] in FR. cbn [table_step run_aop] in A2, H.
    change (py_attr_del am a) with (remove_attribute k m p a).
    destruct (remove_attribute k m p a s) as [s1 r]. cbn [fst snd] in *.
    split; [exact A2|]. split; [exact FR|].
    fold prot in H. destruct (existsb (String.eqb a) prot); destruct H as [H1 [l' [H2 H3]]]; exists l'; auto.
  Qed.

  Lemma pop_step s l a : attr_node k s p v z -> py_attrs s am = Ok l -> In a (map fst l) ->
    fst (py_attr_pop am a s) = fst (py_attr_del am a s) /\
    (is_ok (snd (py_attr_pop am a s)) = is_ok (snd (py_attr_del am a s))).
  Proof.
    intros A R I. unfold py_attr_pop, fbind, freading, py_attr_get, fret. rewrite R. cbn [bind].
    destruct (jlookup a l) as [x|] eqn:E; [|now apply jlookup_none_in in E].
    destruct (py_attr_del am a s) as [s1 [u|e|]]; auto.
  Qed.

  Lemma lookup_in a l : jlookup a l <> None <-> In a (map fst l).
  Proof.
    split.
    - intros H. destruct (in_dec string_dec a (map fst l)); [assumption|]. elim H. now apply jlookup_none_in.
    - intros I E. now apply jlookup_none_in in E.
  Qed.

  Lemma pops_spec ks s s' : py_attr_pops am ks s s' -> forall l, attr_node k s p v z -> py_attrs s am = Ok l ->
    attr_node k s' p v z /\ elsewhere s s' /\ NoDup ks /\ (forall a, In a ks -> In a (map fst l) /\ ~ In a prot) /\
    exists l', py_attrs s' am = Ok l' /\
      forall b, jlookup b l' = if existsb (String.eqb b) ks then None else jlookup b l.
  Proof.
    induction 1 as [s|a ks s s1 s2 l0 x R I P H IH]; intros l A E.
    - split; [exact A|]. split; [intros q _; reflexivity|]. split; [constructor|]. split; [intros a []|].
      exists l. split; [exact E|]. intros b. reflexivity.
    - rewrite R in E. inversion E; subst l0.
      destruct (pop_step A R I) as [P1 P2]. rewrite P in P1, P2. cbn [fst snd] in P1, P2.
      destruct (@del_step s l a A R) as [A1 [F1 [l1 [R1 H1]]]]. rewrite <- P1 in A1, F1, R1. rewrite <- P2 in H1.
      destruct (existsb (String.eqb a) prot) eqn:PR; destruct H1 as [H1 L1]; [discriminate H1|].
      destruct (IH l1 A1 R1) as [A2 [F2 [N2 [I2 [l2 [R2 L2]]]]]].
      split; [exact A2|]. split; [intros q Q; now rewrite (F2 q Q), (F1 q Q)|].
      assert (NP : ~ In a prot).
      { intros X. assert (existsb (String.eqb a) prot = true); [|congruence]. apply existsb_exists. exists a.
        split; [exact X|apply String.eqb_refl]. }
      split; [|split].
      + constructor; [|exact N2]. intros X. apply I2, proj1, lookup_in in X. rewrite L1, String.eqb_refl in X. congruence.
      + intros b [<-|B]; [now split|]. destruct (I2 b B) as [X Y]. split; [|exact Y].
        apply lookup_in in X. rewrite L1 in X. apply lookup_in. destruct (String.eqb b a); congruence.
      + exists l2. split; [exact R2|]. intros b. rewrite L2, L1. cbn [existsb]. destruct (String.eqb b a), (existsb _ ks); reflexivity.
  Qed.

  (** Every name can be taken out that is not protected. *)
  Lemma pop_all : forall n s l, (length (nodup string_dec (map fst l)) <= n)%nat -> attr_node k s p v z -> py_attrs s am = Ok l ->
    (forall a, In a prot -> jlookup a l = None) ->
    exists ks s', py_attr_pops am ks s s' /\ py_attrs s' am = Ok [].
  Proof.
    induction n as [|n IH]; intros s l N A R P.
    - destruct l as [|[a x] l]; [exists [], s; split; [constructor|exact R]|].
      assert (I : In a (nodup string_dec (map fst ((a, x) :: l)))) by (apply nodup_In; now left).
      destruct (nodup string_dec (map fst ((a, x) :: l))); [elim I|cbn in N; lia].
    - destruct l as [|[a x] l0] eqn:EL; [exists [], s; split; [constructor|exact R]|]. rewrite <- EL in *.
      assert (I : In a (map fst l)) by (rewrite EL; now left).
      destruct (pop_step A R I) as [P1 P2]. destruct (@del_step s l a A R) as [A1 [F1 [l1 [R1 H1]]]].
      destruct (existsb (String.eqb a) prot) eqn:PR.
      { apply existsb_exists in PR. destruct PR as [b [B E]]. apply String.eqb_eq in E. subst b. apply P in B.
        now apply jlookup_none_in in B. }
      destruct H1 as [H1 L1].
      rewrite <- P1 in A1, R1. rewrite <- P2 in H1.
      destruct (py_attr_pop am a s) as [s1 [y|e|]] eqn:EP; cbn [fst snd] in *; [|discriminate H1|discriminate H1].
      destruct (IH s1 l1) as [ks [s' [H2 H3]]]; [|exact A1|exact R1| |].
      + assert (IN : incl (a :: nodup string_dec (map fst l1)) (nodup string_dec (map fst l))).
        { intros b [<-|B]; [now apply nodup_In|]. apply nodup_In in B. apply nodup_In. apply lookup_in in B. rewrite L1 in B.
          apply lookup_in. destruct (String.eqb b a); congruence. }
        apply NoDup_incl_length in IN; [cbn [length] in IN; lia|].
        constructor; [|apply NoDup_nodup]. intros B. apply nodup_In, lookup_in in B. rewrite L1, String.eqb_refl in B. congruence.
      + intros b B. rewrite L1. destruct (String.eqb b a); [reflexivity|now apply P].
      + exists (a :: ks), s'. split; [|exact H3]. econstructor; eauto.
  Qed.

  Lemma empty_list (l : list (string * json)) : (forall a, jlookup a l = None) -> l = [].
  Proof. destruct l as [|[a x] l]; [reflexivity|]. intros H. specialize (H a). cbn in H. now rewrite String.eqb_refl in H. Qed.

  Theorem clear_ok s l : attr_node k s p v z -> py_attrs s am = Ok l -> (forall a, In a prot -> jlookup a l = None) ->
    (exists s', py_attr_clear am s s' (Ok tt)) /\
    forall s' o, py_attr_clear am s s' o -> o = Ok tt /\ py_attrs s' am = Ok [] /\ attr_node k s' p v z /\ elsewhere s s'.
  Proof.
    intros A R P. split.
    - destruct (@pop_all _ s l (le_n _) A R P) as [ks [s' [H1 H2]]]. exists s'. econstructor; eauto.
    - intros s' o C. inversion C; subst.
      + destruct (pops_spec H A R) as [A2 [F2 _]]. auto.
      + destruct (pops_spec H A R) as [A2 [F2 [_ [_ [l' [R2 _]]]]]]. now elim (H1 l').
      + rename s'0 into s2. destruct (pops_spec H A R) as [A2 [F2 [_ [_ [l' [R2 L2]]]]]].
        rewrite R2 in H0. inversion H0; subst l'.
        destruct (pop_step A2 R2 H1) as [P1 P2]. destruct (@del_step s2 l0 k0 A2 R2) as [_ [_ [l1 [_ D]]]].
        rewrite <- P2, H2 in D. cbn [snd] in D.
        destruct (existsb (String.eqb k0) prot) eqn:PR; destruct D as [D _].
        * apply existsb_exists in PR. destruct PR as [b [B E]]. apply String.eqb_eq in E. subst b.
          apply lookup_in in H1. rewrite L2, (P _ B) in H1. destruct existsb; congruence.
        * destruct o0; try discriminate D. now elim (H3 a).
  Qed.

  Theorem clear_all s : attr_node k s p v z -> k <> HFile \/ z = true ->
    exists s', py_attr_clear am s s' (Ok tt) /\ py_attrs s' am = Ok [].
  Proof.
    intros A K. destruct (read_attributes_ok A) as [j [R [S L]]].
    assert (X : exists l, py_attrs s am = Ok l /\ forall a, jlookup a l = jfind a j).
    { unfold py_attrs. cbn [am am_kind am_path]. rewrite R. cbn [bind]. destruct S as [->|[l ->]]; eexists; split; reflexivity. }
    destruct X as [l [X Y]]. destruct (@clear_ok s l A X) as [[s' C] H].
    - intros a I. rewrite Y, L. unfold mask. replace (existsb (String.eqb a) (hidden k z)) with true; [reflexivity|].
      symmetry. apply existsb_exists. exists a. split; [|apply String.eqb_refl]. unfold prot, protected in I. unfold hidden.
      destruct z; [elim I|]. destruct k; [destruct K as [K|K]; congruence|elim I|exact I].
    - exists s'. split; [exact C|]. exact (proj1 (proj2 (H _ _ C))).
  Qed.

  Theorem pops_bounded ks s s' l : attr_node k s p v z -> py_attrs s am = Ok l -> py_attr_pops am ks s s' ->
    (length ks <= length l)%nat.
  Proof.
    intros A R H. destruct (pops_spec H A R) as [_ [_ [N [I _]]]]. rewrite <- (map_length fst l).
    apply NoDup_incl_length; [exact N|]. intros a B. now apply I.
  Qed.

  (** With a protected name among them clear always raises, and keeps it. *)
  Theorem clear_stopped s l a : attr_node k s p v z -> py_attrs s am = Ok l -> In a prot -> jlookup a l <> None ->
    (exists s' o, py_attr_clear am s s' o) /\
    forall s' o, py_attr_clear am s s' o -> is_ok o = false /\ exists l', py_attrs s' am = Ok l' /\ jlookup a l' = jlookup a l.
  Proof.
    intros A R I N.
    assert (PA : existsb (String.eqb a) prot = true) by (apply existsb_exists; exists a; split; [exact I|apply String.eqb_refl]).
    split.
    - assert (IN : In a (map fst l)) by now apply lookup_in.
      destruct (py_attr_pop am a s) as [s1 o] eqn:E. exists s1. eexists. eapply (@clear_stuck am [] s s s1 l a o).
      + constructor.
      + exact R.
      + exact IN.
      + exact E.
      + intros x ->. destruct (pop_step A R IN) as [_ P2]. destruct (@del_step s l a A R) as [_ [_ [l1 [_ D]]]].
        rewrite PA in D. rewrite <- P2, E in D. now destruct D.
    - intros s' o C.
      assert (K : forall ks s2, py_attr_pops am ks s s2 -> attr_node k s2 p v z /\
        exists l', py_attrs s2 am = Ok l' /\ jlookup a l' = jlookup a l).
      { intros ks s2 H. destruct (pops_spec H A R) as [A2 [_ [_ [NI [l' [R2 L2]]]]]]. split; [exact A2|]. exists l'.
        split; [exact R2|]. rewrite L2. destruct (existsb (String.eqb a) ks) eqn:X; [|reflexivity].
        apply existsb_exists in X. destruct X as [b [B E]]. apply String.eqb_eq in E. subst b. now apply NI in B. }
      inversion C; subst.
      + destruct (K _ _ H) as [_ [l' [R2 L2]]]. rewrite R2 in H0. inversion H0; subst. cbn in L2. congruence.
      + destruct (K _ _ H) as [_ [l' [R2 _]]]. now elim (H1 l').
      + rename s'0 into s2. destruct (K _ _ H) as [A2 [l' [R2 L2]]]. rewrite R2 in H0. inversion H0; subst l'.
        destruct (pop_step A2 R2 H1) as [P1 P2]. destruct (@del_step s2 l0 k0 A2 R2) as [_ [_ [l1 [R3 D]]]].
        rewrite <- P1, H2 in R3. rewrite <- P2, H2 in D. cbn [fst snd] in D, R3. split; [now destruct o0; [elim (H3 a0)| |]|].
        exists l1. split; [exact R3|]. destruct (existsb (String.eqb k0) prot); destruct D as [D1 D2].
        * now rewrite D2.
        * destruct o0; try discriminate D1. now elim (H3 a0).
  Qed.

  Theorem get_or s l a d : py_attrs s am = Ok l ->
    py_attr_get_or s am a d = Ok (match jlookup a l with Some x => x | None => d end).
  Proof. intros R. unfold py_attr_get_or. now rewrite R. Qed.

  Theorem setdefault s l a d : attr_node k s p v z -> py_attrs s am = Ok l ->
    match jlookup a l with
    | Some x => py_attr_setdefault am a d s = (s, Ok x)
    | None =>
        if existsb (String.eqb a) prot then is_ok (snd (py_attr_setdefault am a d s)) = false /\ fst (py_attr_setdefault am a d s) = s
        else exists s' l', py_attr_setdefault am a d s = (s', Ok d) /\ py_attrs s' am = Ok l' /\
               forall b, jlookup b l' = if String.eqb a b then Some (reparse d) else jlookup b l
    end.
  Proof.
    intros A R. unfold py_attr_setdefault, fbind, freading, fret. rewrite R.
    destruct (jlookup a l) as [x|] eqn:E; [reflexivity|].
    assert (ND : aop_ok (AWrite (JObj [(a, d)]))) by (cbn; constructor; [intros []|constructor]).
    destruct (@one_step k m p v z s (fun b => jlookup b l) _ W A (ex_intro _ l (conj R (fun b => eq_refl))) ND) as [_ H].
    change (py_attr_set am a d) with (write_attributes k m p (JObj [(a, d)])).
    cbn [table_step run_aop] in H. fold prot in H.
    assert (EQ : existsb (fun y => existsb (String.eqb y) (map fst [(a, d)])) prot = existsb (String.eqb a) prot).
    { cbn. clear. induction prot as [|b l IH]; [reflexivity|]. cbn. rewrite IH, Bool.orb_false_r, (String.eqb_sym b a). reflexivity. }
    rewrite EQ in H. destruct (existsb (String.eqb a) prot) eqn:PR.
    - assert (F : write_attributes k m p (JObj [(a, d)]) s = (s, Throw ERuntime)).
      { unfold write_attributes. rewrite W. cbn [negb]. unfold fbind, freading, fret. destruct A as [_ Z _ _]. rewrite Z.
        assert (X := @protect_json_spec k [(a, d)] z). fold prot in X. rewrite EQ in X. rewrite X. reflexivity. }
      rewrite F. now split.
    - destruct H as [H1 [l' [H2 H3]]]. destruct (write_attributes k m p (JObj [(a, d)]) s) as [s1 [u|e|]]; try discriminate H1.
      exists s1, l'. split; [reflexivity|]. split; [exact H2|]. intros b. rewrite H3. cbn [jlookup]. now destruct (String.eqb a b).
  Qed.
End Attrs.
