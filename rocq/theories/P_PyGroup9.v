(** Proofs about the python containers: attributes as a dict. *)
From Coq Require Import ZArith Ascii String.
From Verif Require Import M_Base P_Base M_Double M_Json M_Mode M_Key S_Text P_Key M_Blocking M_Metadata S_Metadata P_Metadata
  M_Fs M_Attributes S_Attributes P_Attributes M_Container S_Container M_PyGroup S_PyGroup.
Import ListNotations.
Local Open Scope list_scope.
Local Open Scope N_scope.

Section Dict.
  Variables (k : hkind) (m : mode) (p : path) (v z : bool).
  Let am := AttrManager k m p.
  Let prot := protected k z.

  (** The manager shows the table [t]. *)
  Definition shown (s : fsys) (t : table) : Prop := exists l, py_attrs s am = Ok l /\ forall a, jlookup a l = t a.

  Lemma shown_read s t : attr_node k s p v z ->
    (shown s t <-> exists j, read_attributes k s p = Ok j /\ forall a, jfind a j = t a).
  Proof.
    intros A. destruct (read_attributes_ok A) as [j [R [F _]]]. unfold shown, py_attrs. cbn [am am_kind am_path]. rewrite R. cbn [bind].
    destruct F as [-> | [l ->]]; split.
    - intros [l [E H]]. inversion E; subst. exists JNull. split; [reflexivity|exact H].
    - intros [j [E H]]. inversion E; subst. exists []. split; [reflexivity|exact H].
    - intros [l' [E H]]. inversion E; subst. exists (JObj l'). split; [reflexivity|exact H].
    - intros [j [E H]]. inversion E; subst. exists l. split; [reflexivity|exact H].
  Qed.

  Lemma one_step s t o : can_write m = true -> attr_node k s p v z -> shown s t -> aop_ok o ->
    attr_node k (fst (run_aop k m p o s)) p v z /\
    match table_step prot o t with
    | Some t' => is_ok (snd (run_aop k m p o s)) = true /\ shown (fst (run_aop k m p o s)) t'
    | None => is_ok (snd (run_aop k m p o s)) = false /\ shown (fst (run_aop k m p o s)) t
    end.
  Proof.
    intros W A S O. destruct (proj1 (shown_read t A) S) as [j0 [R0 L0]].
    assert (F : Forall aop_ok [o]) by now constructor.
    destruct (@api_run_ok k m p v z W [o] s A F) as [A2 _].
    destruct (@attributes_history k m p v z [o] s j0 W A F R0) as [H1 [j [R1 H2]]].
    cbn [api_run table_run] in A2, H1, H2, R1. fold prot in H1, H2.
    destruct (run_aop k m p o s) as [s1 r] eqn:E. cbn [fst snd] in *. split; [exact A2|].
    assert (X := @table_step_ext prot o (fun a => jfind a j0) t L0).
    destruct (table_step prot o (fun a => jfind a j0)) as [u|], (table_step prot o t) as [u'|]; try contradiction; cbn [fst snd] in *.
    - inversion H1 as [H3]. split; [now rewrite H3|]. apply (shown_read u' A2). exists j. split; [exact R1|]. intros a. now rewrite H2, X.
    - inversion H1 as [H3]. split; [now rewrite H3|]. apply (shown_read t A2). exists j. split; [exact R1|]. intros a. now rewrite H2, L0.
  Qed.

  Lemma shown_ext s t t' : (forall a, t a = t' a) -> shown s t -> shown s t'.
  Proof. intros E [l [A B]]. exists l. split; [exact A|]. intros a. now rewrite B. Qed.

  Lemma dict_one s t o : can_write m = true -> attr_node k s p v z -> shown s t -> dict_op_ok o ->
    (forall a, o = DDel a -> t a <> None \/ existsb (String.eqb a) prot = true) ->
    attr_node k (snd (py_dict_step am o s)) p v z /\
    fst (py_dict_step am o s) = fst (dict_step prot o t) /\
    shown (snd (py_dict_step am o s)) (snd (dict_step prot o t)).
  Proof.
    intros W A S O DP. destruct S as [l [PL LL]] eqn:ES.
    assert (GET : forall a, result (fun x => Some x) (py_attr_get s am a) = match t a with Some x => Some (Some x) | None => None end).
    { intros a. unfold py_attr_get. rewrite PL. cbn [bind]. rewrite LL. now destruct (t a). }
    assert (WR : forall l, NoDup (map fst l) ->
      attr_node k (fst (py_attr_update am l s)) p v z /\
      (existsb (fun x => existsb (String.eqb x) (map fst l)) prot = true ->
         is_ok (snd (py_attr_update am l s)) = false /\ shown (fst (py_attr_update am l s)) t) /\
      (existsb (fun x => existsb (String.eqb x) (map fst l)) prot = false ->
         is_ok (snd (py_attr_update am l s)) = true /\
         shown (fst (py_attr_update am l s)) (fun a => match jlookup a l with Some x => Some (reparse x) | None => t a end))).
    { intros l' ND. destruct (@one_step s t (AWrite (JObj l')) W A S ND) as [A2 H]. cbn [table_step] in H.
      unfold py_attr_update. cbn [am am_kind am_mode am_path]. cbn [run_aop] in *. split; [exact A2|].
      split; intros E; rewrite E in H; exact H. }
    assert (RM : forall a,
      attr_node k (fst (py_attr_del am a s)) p v z /\
      (existsb (String.eqb a) prot = true -> is_ok (snd (py_attr_del am a s)) = false /\ shown (fst (py_attr_del am a s)) t) /\
      (existsb (String.eqb a) prot = false ->
         is_ok (snd (py_attr_del am a s)) = true /\ shown (fst (py_attr_del am a s)) (fun b => if String.eqb b a then None else t b))).
    { intros a. destruct (@one_step s t (ARemove a) W A S Logic.I) as [A2 H]. cbn [table_step] in H.
      unfold py_attr_del. cbn [am am_kind am_mode am_path]. cbn [run_aop] in *. split; [exact A2|].
      split; intros E; rewrite E in H; exact H. }
    assert (SYM : forall a, shown (fst (py_attr_del am a s)) (fun b => if String.eqb b a then None else t b) ->
      shown (fst (py_attr_del am a s)) (fun b => if String.eqb a b then None else t b)).
    { intros a. apply shown_ext. intros b. now rewrite String.eqb_sym. }
    destruct o as [a|a|a x|l'|a|a]; cbn [py_dict_step dict_step fst snd].
    - split; [exact A|]. split; [apply GET|exact S].
    - split; [exact A|]. split; [|exact S]. unfold py_attr_in. rewrite PL. cbn [bind result]. rewrite LL. reflexivity.
    - unfold py_attr_set. assert (ND : NoDup (map fst [(a, x)])) by (constructor; [intros []|constructor]).
      destruct (WR [(a, x)] ND) as [A2 [H1 H2]]. destruct (py_attr_update am [(a, x)] s) as [s1 r]. cbn [fst snd] in *.
      split; [exact A2|].
      assert (EQ : existsb (fun y => existsb (String.eqb y) (map fst [(a, x)])) prot = existsb (String.eqb a) prot).
      { cbn. clear. induction prot as [|b l IH]; [reflexivity|]. cbn. rewrite IH, orb_false_r, (String.eqb_sym b a). reflexivity. }
      rewrite EQ in H1, H2. destruct (existsb (String.eqb a) prot).
      + destruct (H1 eq_refl) as [B C]. destruct r; try discriminate B; split; try reflexivity; exact C.
      + destruct (H2 eq_refl) as [B C]. destruct r; try discriminate B. split; [reflexivity|].
        revert C. apply shown_ext. intros b. cbn [jlookup]. destruct (String.eqb a b) eqn:E; cbn; now rewrite ?E.
    - destruct (WR l' O) as [A2 [H1 H2]]. destruct (py_attr_update am l' s) as [s1 r]. cbn [fst snd] in *.
      split; [exact A2|]. destruct (existsb _ prot).
      + destruct (H1 eq_refl) as [B C]. destruct r; try discriminate B; split; try reflexivity; exact C.
      + destruct (H2 eq_refl) as [B C]. destruct r; try discriminate B. split; [reflexivity|exact C].
    - specialize (DP a eq_refl). destruct (RM a) as [A2 [H1 H2]]. specialize (SYM a).
      destruct (py_attr_del am a s) as [s1 r]. cbn [fst snd] in *.
      split; [exact A2|]. destruct (existsb (String.eqb a) prot).
      + destruct (H1 eq_refl) as [B C]. destruct r; try discriminate B; split; try reflexivity; exact C.
      + destruct (H2 eq_refl) as [B C]. destruct r; try discriminate B. destruct DP as [DP|DP]; [|discriminate DP].
        destruct (t a); [|congruence]. split; [reflexivity|]. now apply SYM.
    - assert (G := GET a).
      assert (PP : py_attr_pop am a s = match py_attr_get s am a with
                                        | Ok x => let (s1, r) := py_attr_del am a s in (s1, let! _ := r in Ok x)
                                        | Throw e => (s, Throw e)
                                        | UB => (s, UB)
                                        end).
      { unfold py_attr_pop, fbind, freading. destruct (py_attr_get s am a); try reflexivity.
        destruct (py_attr_del am a s) as [s1 [| |]]; reflexivity. }
      rewrite PP. clear PP.
      destruct (py_attr_get s am a) as [x| |]; cbn [result] in G.
      + destruct (t a) as [y|]; [|discriminate G]. inversion G; subst y.
        destruct (RM a) as [A2 [H1 H2]]. specialize (SYM a).
        destruct (py_attr_del am a s) as [s1 r]. cbn [fst snd] in *. destruct (existsb (String.eqb a) prot).
        * destruct (H1 eq_refl) as [B C]. destruct r; try discriminate B; cbn; split; try exact A2; split; try reflexivity; exact C.
        * destruct (H2 eq_refl) as [B C]. destruct r; try discriminate B. cbn. split; [exact A2|]. split; [reflexivity|]. now apply SYM.
      + cbn. destruct (t a); [discriminate G|]. split; [exact A|]. split; [reflexivity|exact S].
      + cbn. destruct (t a); [discriminate G|]. split; [exact A|]. split; [reflexivity|exact S].
  Qed.

  Theorem dict_history ops : forall s t, can_write m = true -> attr_node k s p v z -> shown s t ->
    Forall dict_op_ok ops -> dels_present prot ops t ->
    fst (py_dict_run am ops s) = fst (dict_run prot ops t) /\
    shown (snd (py_dict_run am ops s)) (snd (dict_run prot ops t)) /\
    attr_node k (snd (py_dict_run am ops s)) p v z.
  Proof.
    induction ops as [|o ops IH]; intros s t W A S O DP.
    - cbn. split; [reflexivity|]. now split.
    - inversion O as [|? ? O1 O2]; subst. cbn [dels_present] in DP. destruct DP as [D1 D2].
      destruct (@dict_one s t o W A S O1) as [A2 [E2 S2]].
      { intros a ->. exact D1. }
      cbn [py_dict_run dict_run].
      destruct (py_dict_step am o s) as [x s1]. destruct (dict_step prot o t) as [y t1]. cbn [fst snd] in *. subst y.
      destruct (IH s1 t1 W A2 S2 O2 D2) as [H1 [H2 H3]].
      destruct (py_dict_run am ops s1) as [xs s2], (dict_run prot ops t1) as [ys t2]. cbn [fst snd] in *. subst ys.
      split; [reflexivity|]. now split.
  Qed.

  (** Deleting a name that is not there is not an error. *)
  Theorem del_missing s t a : can_write m = true -> attr_node k s p v z -> shown s t ->
    t a = None -> existsb (String.eqb a) prot = false -> is_ok (snd (py_attr_del am a s)) = true.
  Proof.
    intros W A S N P. destruct (@one_step s t (ARemove a) W A S Logic.I) as [_ H]. cbn [table_step run_aop] in H. rewrite P in H. apply H.
  Qed.
End Dict.
