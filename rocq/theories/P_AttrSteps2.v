(** Clients that change attributes, and calls that are interrupted. *)
From Coq Require Import String.
From Verif Require Import M_Base M_Json M_Mode M_Fs M_Attributes M_Metadata M_Container M_Pool M_AttrSteps
  S_Attributes S_AttrSteps P_Base P_Attributes P_Container P_AttrSteps.
Import List ListNotations.
Local Open Scope list_scope.

Lemma read_agree k p s s' : agree p s s' -> read_attributes k s p = read_attributes k s' p.
Proof.
  intros A. destruct (steps_alone (AtRead k p) s) as [_ E], (steps_alone (AtRead k p) s') as [_ E']. cbn [call_alone snd] in E, E'.
  rewrite <- E, <- E'. exact (proj1 (run_agree (local_call (AtRead k p)) A)).
Qed.
Lemma metadata_agree p s s' : agree p s s' -> read_dataset_metadata s p = read_dataset_metadata s' p.
Proof.
  intros A. unfold read_dataset_metadata, metadata_doc, parse_doc, fs_exists.
  rewrite (A (p ++ [".zarray"%string])), (A (p ++ ["zarr.json"%string])), (A (p ++ ["attributes.json"%string])) by (apply foot_doc; cbn; auto 6).
  destruct (s' (p ++ [".zarray"%string])) eqn:E1, (s' (p ++ ["zarr.json"%string])) eqn:E2, (s' (p ++ ["attributes.json"%string])) eqn:E3;
    cbn; try reflexivity; rewrite (A (p ++ [_])) by (apply foot_doc; cbn; auto 6); reflexivity.
Qed.

Lemma call_alone_change k m p o s : call_alone (change_call k m p o) s = done (run_aop k m p o s).
Proof. destruct o; reflexivity. Qed.
Lemma writer_alone w : forall s, fst (calls_alone (writer_calls w) s) = snd (api_run (w_kind w) (w_mode w) (w_node w) (w_ops w) s) /\
  map (fun o => is_ok o) (snd (calls_alone (writer_calls w) s)) = fst (api_run (w_kind w) (w_mode w) (w_node w) (w_ops w) s).
Proof.
  destruct w as [k m p ops]. unfold writer_calls. cbn [w_kind w_mode w_node w_ops].
  induction ops as [|o ops IH]; intros s; cbn [map calls_alone api_run fst snd]; [auto|].
  rewrite call_alone_change. specialize (IH (fst (run_aop k m p o s))). unfold done. cbn [fst snd].
  destruct (run_aop k m p o s) as [s1 res]. cbn [fst snd] in *. destruct (api_run k m p ops s1) as [bs s2]. cbn [fst snd] in *.
  destruct IH as [-> IH]. split; [reflexivity|]. cbn [map]. rewrite IH. now destruct res.
Qed.
Lemma map_combine_snd {A B C} (g : B -> C) : forall (l : list A) (l' : list B), length l = length l' ->
  map (fun x => g (snd x)) (combine l l') = map g l'.
Proof. induction l as [|a l IH]; intros [|b l'] E; cbn in *; try discriminate; [reflexivity|]. now rewrite IH by congruence. Qed.

Lemma writers_separate ws : NoDup (map w_node ws) ->
  (forall w w' d, In w ws -> In w' ws -> In d documents -> w_node w' <> w_node w ++ [d]) -> separate (map writer_calls ws).
Proof.
  intros ND Names.
  assert (U : forall l c, In l (map writer_calls ws) -> In c l -> exists w', In w' ws /\ l = writer_calls w' /\ call_node c = w_node w').
  { intros l c Hl Hc. apply in_map_iff in Hl. destruct Hl as (w' & <- & Hw). exists w'. split; [exact Hw|]. split; [reflexivity|].
    unfold writer_calls in Hc. apply in_map_iff in Hc. destruct Hc as (o & <- & _). now destruct o. }
  split.
    - intros t1 t2 l1 l2 c1 c2 Dt N1 N2 I1 I2 _ E. apply Dt.
      rewrite nth_error_map in N1, N2. destruct (nth_error ws t1) as [w1|] eqn:E1; [|discriminate]. destruct (nth_error ws t2) as [w2|] eqn:E2; [|discriminate].
      cbn in N1, N2. injection N1 as <-. injection N2 as <-.
      assert (K : forall c w', In c (writer_calls w') -> call_node c = w_node w').
      { intros c w' Hc. unfold writer_calls in Hc. apply in_map_iff in Hc. destruct Hc as (o & <- & _). now destruct o. }
      rewrite (K _ _ I1), (K _ _ I2) in E.
      refine (proj1 (NoDup_nth_error (map w_node ws)) ND t1 t2 _ _).
      + rewrite map_length. apply nth_error_Some. congruence.
      + rewrite !nth_error_map, E1, E2. cbn. congruence.
    - intros l l' c c' d Hl Hl' Hc Hc' Hd. destruct (U l c Hl Hc) as (w1 & I1 & _ & ->). destruct (U l' c' Hl' Hc') as (w2 & I2 & _ & ->). exact (Names w1 w2 d I1 I2 Hd).
Qed.

(** Clients with nodes of their own. *)
Theorem writers_spec ws s y :
  NoDup (map w_node ws) ->
  (forall w w' d, In w ws -> In w' ws -> In d documents -> w_node w' <> w_node w ++ [d]) ->
  reach aclients_step (aclients_init s (map writer_calls ws)) y -> aclients_done y ->
  forall t w v z j0, nth_error ws t = Some w ->
  can_write (w_mode w) = true -> attr_node (w_kind w) s (w_node w) v z -> Forall aop_ok (w_ops w) ->
  read_attributes (w_kind w) s (w_node w) = Ok j0 ->
  successes (own_log t (ac_log y)) = fst (table_run (protected (w_kind w) z) (w_ops w) (fun a => jfind a j0)) /\
  (exists j, read_attributes (w_kind w) (ac_files y) (w_node w) = Ok j /\
     shows j (snd (table_run (protected (w_kind w) z) (w_ops w) (fun a => jfind a j0)))) /\
  (w_kind w = HDataset -> read_dataset_metadata (ac_files y) (w_node w) = read_dataset_metadata s (w_node w)).
Proof.
  intros ND Names R D t w v z j0 N W A F R0.
  assert (U : forall l c, In l (map writer_calls ws) -> In c l -> exists w', In w' ws /\ l = writer_calls w' /\ call_node c = w_node w').
  { intros l c Hl Hc. apply in_map_iff in Hl. destruct Hl as (w' & <- & Hw). exists w'. split; [exact Hw|]. split; [reflexivity|].
    unfold writer_calls in Hc. apply in_map_iff in Hc. destruct Hc as (o & <- & _). now destruct o. }
  assert (S := @writers_separate ws ND Names).
  destruct (clients_alone S R) as (C1 & C2 & C3).
  assert (Nc : nth_error (map writer_calls ws) t = Some (writer_calls w)) by (now apply map_nth_error).
  destruct (writer_alone w s) as [X1 X2].
  assert (Ag : agree (w_node w) (ac_files y) (snd (api_run (w_kind w) (w_mode w) (w_node w) (w_ops w) s))).
  { intros q Fq. destruct (w_ops w) as [|o ops] eqn:Eo.
    - cbn [api_run snd]. apply C3. intros l c Hl Hc _ (d & Hd & E).
      destruct (U l c Hl Hc) as (w' & Iw & El & Ec). rewrite Ec in E.
      destruct Fq as [Fq|(d' & _ & Fq)].
      + apply (Names w' w d Iw (nth_error_In _ _ N) Hd). congruence.
      + rewrite E in Fq. apply app_inj_tail in Fq. destruct Fq as [Fq _].
        assert (w' = w); [|subst w'; unfold writer_calls in El; rewrite Eo in El; subst l; destruct Hc].
        apply In_nth_error in Iw. destruct Iw as [t' N'].
        assert (t' = t); [|congruence]. refine (proj1 (NoDup_nth_error (map w_node ws)) ND t' t _ _).
        * rewrite map_length. apply nth_error_Some. congruence.
        * rewrite !nth_error_map, N, N'. cbn. congruence.
    - rewrite <- X1. refine (C2 D t _ (change_call (w_kind w) (w_mode w) (w_node w) o) q Nc _ _).
      + unfold writer_calls. rewrite Eo. now left.
      + assert (call_node (change_call (w_kind w) (w_mode w) (w_node w) o) = w_node w) as -> by (now destruct o). exact Fq. }
  destruct (@attributes_history (w_kind w) (w_mode w) (w_node w) v z (w_ops w) s j0 W A F R0) as [T1 (j & Rj & T2)].
  split; [|split].
  - destruct (C1 t _ Nc) as (dn & rest & El & Ol & Hd). specialize (Hd D). subst rest. rewrite app_nil_r in El. subst dn.
    rewrite Ol. unfold successes. rewrite (map_combine_snd (fun o : outcome json => is_ok o)) by (symmetry; apply calls_alone_length).
    rewrite X2. exact T1.
  - exists j. rewrite (read_agree (w_kind w) Ag). auto.
  - intros Ek. rewrite (metadata_agree Ag). rewrite Ek in *. exact (@attributes_keep_metadata _ _ v z _ _ W A F).
Qed.

(** *** Every execution ends *)
Lemma acode_ind2 (P : acode -> Prop) : (forall o, P (ARet o)) -> (forall f, (forall s, P (snd (f s))) -> P (AAct f)) -> forall p, P p.
Proof. intros H1 H2. fix IH 1. intros [o|f]; [apply H1|apply H2]. intros s. destruct (f s) as [s' p]. apply IH. Qed.
Notation cstate := (option (acall * acode) * list acall)%type.
Inductive csmaller : cstate -> cstate -> Prop :=
| cs_start c rest : csmaller (Some (c, steps_of_call c), rest) (None, c :: rest)
| cs_act c f s rest : csmaller (Some (c, snd (f s)), rest) (Some (c, AAct f), rest)
| cs_end c o rest : csmaller (None, rest) (Some (c, ARet o), rest).
Lemma csmaller_acc x : Acc csmaller x.
Proof.
  destruct x as [cur rest]. revert cur.
  assert (S : forall rest, Acc csmaller (None, rest) -> forall c code, Acc csmaller (Some (c, code), rest)).
  { intros r H c code. induction code as [o|f IH] using acode_ind2; constructor; intros y E; inversion E; subst; auto. }
  assert (N : Acc csmaller (None, rest)).
  { induction rest as [|c rest IH]; constructor; intros y E; inversion E; subst. apply S, IH. }
  intros [[c code]|]; [now apply S|exact N].
Qed.
Inductive cone : list cstate -> list cstate -> Prop :=
| cone_here x y l : csmaller x y -> cone (x :: l) (y :: l)
| cone_later x l l' : cone l l' -> cone (x :: l) (x :: l').
Lemma cone_acc l : Acc cone l.
Proof.
  induction l as [|x l IH]; [constructor; intros y H; inversion H|].
  revert l IH. induction (csmaller_acc x) as [x _ IHx]. intros l IH. induction IH as [l Hl IHl].
  constructor. intros z H. inversion H; subst.
  - apply IHx; [assumption|]. now constructor.
  - apply IHl. assumption.
Qed.
Lemma cone_set t l x y : nth_error l t = Some y -> csmaller x y -> cone (set_nth t l x) l.
Proof.
  revert l. induction t as [|t IH]; intros [|z l] H Hs; cbn in *; try discriminate.
  - injection H as ->. now constructor.
  - constructor. now apply IH.
Qed.
Theorem aclients_terminate y : Acc (fun a b => aclients_step b a) y.
Proof.
  remember (ac_clients y) as l eqn:E. revert y E. induction (cone_acc l) as [l _ IH]. intros y ->.
  constructor. intros y' [t H]. destruct H; (eapply IH; [|reflexivity]); cbn [ac_clients]; (eapply cone_set; [eassumption|constructor]).
Qed.
Theorem aclients_progress y : aclients_done y \/ exists y', aclients_step y y'.
Proof.
  assert (D : Forall (fun x => x = (None, [])) (ac_clients y) \/ exists t x, nth_error (ac_clients y) t = Some x /\ x <> (None, [])).
  { induction (ac_clients y) as [|x l IH]; [left; constructor|].
    assert (X : x = (None, []) \/ x <> (None, [])) by (destruct x as [[|] [|]]; (now left) || (right; discriminate)).
    destruct X as [->|X]; [|right; exists 0%nat, x; auto]. destruct IH as [IH|(t & x & N & X)]; [left; now constructor|].
    right. exists (S t), x. auto. }
  destruct D as [D|(t & [[[c [o|f]]|] rest] & N & X)]; [left; exact D| | |]; right.
  - eexists. exists t. eapply ac_end; eauto.
  - eexists. exists t. eapply ac_act; eauto.
  - destruct rest as [|c rest]; [congruence|]. eexists. exists t. eapply ac_start; eauto.
Qed.

(** *** Interruption *)
(** Started with the files [s], the code reads, and then it may write the document
    [name] of [p]. *)
Inductive once (s : fsys) (p : path) (name : string) : acode -> Prop :=
| once_ret o : once s p name (ARet o)
| once_look f : fst (f s) = s -> once s p name (snd (f s)) -> once s p name (AAct f)
| once_write j : once s p name (steps_write p name j).
Lemma once_lift s p name {A} (o : outcome A) k : (forall a, once s p name (k a)) -> once s p name (alift o k).
Proof. intros H. destruct o; cbn; [apply H|constructor|constructor]. Qed.
Lemma once_exists s p name q k : once s p name (k (fs_exists s q)) -> once s p name (aexists q k).
Proof. intros H. now constructor. Qed.
Lemma once_is_zarr s p name k q cont z : handle_is_zarr k s q = Ok z -> once s p name (cont z) -> once s p name (steps_is_zarr k q cont).
Proof.
  intros Z H. apply once_exists. unfold handle_is_zarr, is_zarr_dataset, is_zarr_group in Z.
  destruct k; destruct (fs_exists s q); cbn [negb] in *; try discriminate; apply once_exists; injection Z as Z;
    (destruct (fs_exists s (q ++ [_])); cbn [orb] in Z; [now rewrite Z|]; apply once_exists; now rewrite Z).
Qed.
Lemma once_read s p name q n cont : (forall o, once s p name (cont o)) -> once s p name (steps_read q n cont).
Proof.
  intros H. apply once_exists. destruct (fs_exists s (q ++ [n])); cbn [negb]; [|apply H].
  constructor; [reflexivity|]. cbn. destruct (s (q ++ [n])) as [[]|]; try constructor. apply H.
Qed.
Lemma once_change k m p o s v z : attr_node k s p v z -> once s p (attr_file v z) (steps_of_call (change_call k m p o)).
Proof.
  intros A. pose proof (an_zarr A) as Z. pose proof (an_v3 A) as V.
  assert (G : forall (v3 plain : acode), (v = true -> once s p (attr_file v z) v3) -> (v = false -> once s p (attr_file v z) plain) ->
    once s p (attr_file v z) (if z then aexists (p ++ ["zarr.json"%string]) (fun e => if e then v3 else plain) else plain)).
  { intros v3 plain H1 H2. destruct z; cbn [andb] in V.
    - apply once_exists. rewrite <- V. destruct v; auto.
    - subst v. auto. }
  destruct o as [j|a]; cbn [change_call steps_of_call]; (destruct (can_write m); cbn [negb]; [|constructor]).
  - assert (H : once s p (attr_file v z) (steps_is_zarr k p (fun z => steps_gen_write p z j))).
    { eapply once_is_zarr; [exact Z|]. unfold steps_gen_write. apply G; intros ->; apply once_read; intros x.
      - apply once_lift. intros b. apply once_lift. intros f. apply once_write.
      - apply once_lift. intros b. apply once_write. }
    destruct k; [|exact H|]; (eapply once_is_zarr; [exact Z|]; apply once_lift; intros _; exact H).
  - assert (H : once s p (attr_file v z) (steps_is_zarr k p (fun z => steps_gen_remove p z a))).
    { eapply once_is_zarr; [exact Z|]. unfold steps_gen_remove. apply G; intros ->; apply once_read; intros [x|]; try constructor.
      - apply once_lift. intros f. apply once_write.
      - apply once_lift. intros b. apply once_write. }
    destruct k; [|exact H|]; (eapply once_is_zarr; [exact Z|]; apply once_lift; intros _; exact H).
Qed.

Lemma once_crash s p name c : once s p name c -> forall s', acrash c s s' ->
  same s' s \/ (exists b, s' (p ++ [name]) = Some (NBlob b) /\ forall q, q <> p ++ [name] -> s' q = s q) \/ same s' (fst (run_steps c s)).
Proof.
  assert (Fin : forall (s2 : fsys) s' o, acrash (ARet o) s2 s' -> s' = s2) by (intros s2 s' o H; inversion H; reflexivity).
  induction 1 as [o|f E H IH|j]; intros s' C.
  - left. rewrite (Fin _ _ _ C). intros q. reflexivity.
  - inversion C as [? ?|? ? ? C'|f' ? q j b E1 E2]; subst.
    + left. intros q. reflexivity.
    + rewrite E in C'. destruct (IH s' C') as [I|[I|I]]; auto. right. right. cbn [run_steps].
      clear - I E. destruct (f s) as [s1 c1]. cbn [fst snd] in *. now subst s1.
    + rewrite E in E2. congruence.
  - inversion C as [? ?|? ? ? C'|f' ? q j' b E1 E2]; subst; clear C.
    + left. intros q. reflexivity.
    + revert C'. cbn [fst snd run_steps]. unfold steps_write. cbn [run_steps].
      destruct (fs_isdir s p && negb (fs_isdir s (p ++ [name]))); cbn [fst snd run_steps].
      * intros C. inversion C as [? ?|? ? ? C'|f' ? q j' b E1 E2]; subst; clear C.
        -- right. left. exists []. split; [now rewrite path_eqb_refl|]. intros q N. now rewrite path_eqb_ne.
        -- cbn [fst snd] in C'. right. right. rewrite (Fin _ _ _ C'). intros q. reflexivity.
        -- cbn [fst] in E1, E2. right. left. exists b.
           destruct (path_eqb q (p ++ [name])) eqn:Eq; [|congruence]. apply path_eqb_eq in Eq. subst q.
           split; [now rewrite path_eqb_refl|]. intros q N. now rewrite !path_eqb_ne.
      * intros C. left. rewrite (Fin _ _ _ C). intros q. reflexivity.
    + revert E2. cbn [fst]. destruct (fs_isdir s p && negb (fs_isdir s (p ++ [name]))); cbn [fst]; [|congruence].
      destruct (path_eqb q (p ++ [name])); congruence.
Qed.

Theorem crash_spec k m p o s v z s' : can_write m = true -> attr_node k s p v z -> aop_ok o ->
  acrash (steps_of_call (change_call k m p o)) s s' ->
  (forall q, q <> p ++ [attr_file v z] -> s' q = s q) /\
  (read_attributes k s' p = read_attributes k s p \/
   read_attributes k s' p = read_attributes k (fst (call_alone (change_call k m p o) s)) p \/
   read_attributes k s' p = Throw EJson) /\
  (k = HDataset -> read_dataset_metadata s' p = read_dataset_metadata s p \/ read_dataset_metadata s' p = Throw EJson).
Proof.
  intros W A F C.
  assert (Fr : forall q, q <> p ++ [attr_file v z] -> fst (call_alone (change_call k m p o) s) q = s q).
  { intros q N. rewrite call_alone_change. cbn [done fst]. exact (proj1 (proj2 (@run_aop_ok k m s p v z o W A F)) q N). }
  destruct (once_crash (@once_change k m p o s v z A) C) as [H|[(b & Hb & H)|H]].
  - assert (Ag : agree p s' s) by (intros q _; apply H). split; [intros q _; apply H|].
    split; [left; exact (read_agree k Ag)|intros _; left; exact (metadata_agree Ag)].
  - split; [exact H|].
    pose proof (an_zarr A) as Z0. pose proof (an_v3 A) as V0. pose proof (an_doc A) as Od.
    assert (P1 : s' p = s p) by (apply H; intros E; symmetry in E; exact (snoc_ne E)).
    assert (P2 : forall d, d <> attr_file v z -> s' (p ++ [d]) = s (p ++ [d])).
    { intros d N. apply H. intros E. apply app_inj_tail in E. destruct E as [_ E]. congruence. }
    assert (P3 : fs_exists s' (p ++ ["zarr.json"%string]) = fs_exists s (p ++ ["zarr.json"%string])).
    { destruct v; [|unfold fs_exists; now rewrite P2 by (destruct z; discriminate)].
      unfold fs_exists. change "zarr.json"%string with (attr_file true z). rewrite Hb.
      destruct (s (p ++ [attr_file true z])); [reflexivity|]. cbn in Od. destruct Od; discriminate. }
    assert (P4 : fs_exists s' (p ++ [".zarray"%string]) = fs_exists s (p ++ [".zarray"%string])).
    { unfold fs_exists. now rewrite P2 by (destruct v, z; discriminate). }
    assert (Z : handle_is_zarr k s' p = Ok z /\ (z && fs_exists s' (p ++ ["zarr.json"%string])) = v).
    { split; [|now rewrite P3].
      unfold handle_is_zarr, is_zarr_dataset, is_zarr_group in *. rewrite P3. unfold fs_exists in *. rewrite P1, !P2 by (destruct v, z; discriminate). exact Z0. }
    destruct Z as [Z V].
    split.
    + right. right. unfold read_attributes. rewrite Z. cbn [bind]. unfold gen_read_attributes. rewrite V.
      destruct v; unfold read_v3_attributes, read_doc_or, read_doc.
      * change "zarr.json"%string with (attr_file true z). now rewrite Hb.
      * change (attributes_name z) with (attr_file false z). now rewrite Hb.
    + intros ->.
      assert (P5 : fs_exists s' (p ++ ["attributes.json"%string]) = fs_exists s (p ++ ["attributes.json"%string])).
      { destruct v; [unfold fs_exists; now rewrite P2 by discriminate|]. destruct z; [unfold fs_exists; now rewrite P2 by discriminate|].
        unfold fs_exists. change "attributes.json"%string with (attr_file false false). rewrite Hb.
        destruct (s (p ++ [attr_file false false])); [reflexivity|]. cbn in Od. destruct Od as [_ Od]. discriminate (Od eq_refl). }
      unfold read_dataset_metadata. assert (M : metadata_doc s' p = metadata_doc s p) by (unfold metadata_doc; now rewrite P3, P4, P5).
      rewrite M. destruct (metadata_doc s p) as [[z' name]|e|]; cbn [bind]; [|now left|now left].
      unfold parse_doc. destruct (string_dec name (attr_file v z)) as [->|Nn].
      * right. now rewrite Hb.
      * left. now rewrite P2.
  - assert (Ag : agree p s' (fst (call_alone (change_call k m p o) s))).
    { intros q _. rewrite H. exact (proj1 (steps_alone _ s) q). }
    split; [|split].
    + intros q N. rewrite H, (proj1 (steps_alone _ s) q). exact (Fr q N).
    + right. left. exact (read_agree k Ag).
    + intros ->. left. rewrite (metadata_agree Ag), call_alone_change. cbn [done fst].
      pose proof (@attributes_keep_metadata m p v z [o] s W A (Forall_cons _ F (Forall_nil _))) as K. cbn [api_run snd] in K.
      destruct (run_aop HDataset m p o s) as [s1 r]. exact K.
Qed.

(** *** Running examples *)
Definition aexec_step (y : aclients) (t : nat) : aclients :=
  match nth_error (ac_clients y) t with
  | Some (None, c :: rest) => AClients (ac_files y) (set_nth t (ac_clients y) (Some (c, steps_of_call c), rest)) (ac_log y)
  | Some (Some (c, AAct f), rest) =>
      AClients (fst (f (ac_files y))) (set_nth t (ac_clients y) (Some (c, snd (f (ac_files y))), rest)) (ac_log y)
  | Some (Some (c, ARet o), rest) => AClients (ac_files y) (set_nth t (ac_clients y) (None, rest)) (ac_log y ++ [(t, c, o)])
  | _ => y
  end.
Fixpoint aexec (y : aclients) (sched : list nat) : aclients :=
  match sched with [] => y | t :: r => aexec (aexec_step y t) r end.
Lemma aexec_step_ok y t : aexec_step y t = y \/ aclient_step y t (aexec_step y t).
Proof.
  unfold aexec_step. destruct (nth_error (ac_clients y) t) as [[[[c [o|f]]|] rest]|] eqn:E; try (now left).
  - right. now apply ac_end.
  - right. now apply ac_act.
  - destruct rest as [|c rest]; [now left|]. right. now apply ac_start.
Qed.
Lemma aexec_reach sched : forall y0 y, reach aclients_step y0 y -> reach aclients_step y0 (aexec y sched).
Proof.
  induction sched as [|t r IH]; intros y0 y R; cbn [aexec]; [exact R|]. apply IH.
  destruct (aexec_step_ok y t) as [->|S]; [exact R|]. eapply reach_step; [exact R|]. now exists t.
Qed.
Lemma aclients_return y0 y : reach aclients_step y0 y -> exists y', reach aclients_step y0 y' /\ aclients_done y'.
Proof.
  intros R. induction (aclients_terminate y) as [y _ IH].
  destruct (aclients_progress y) as [D|[y' S]]; [eauto|]. apply (IH y' S). eapply reach_step; eauto.
Qed.
Fixpoint stopped (n : nat) (c : acode) (s : fsys) : fsys :=
  match n, c with
  | S n', AAct f => stopped n' (snd (f s)) (fst (f s))
  | _, _ => s
  end.
Lemma stopped_crash n : forall c s, acrash c s (stopped n c s).
Proof. induction n as [|n IH]; intros [o|f] s; cbn [stopped]; constructor. apply IH. Qed.
