(** Proofs about the python containers: visititems. *)
From Coq Require Import ZArith Ascii String.
From Verif Require Import M_Base P_Base M_Double M_Json M_Mode M_Key S_Text P_Key M_Blocking M_Metadata S_Metadata P_Metadata
  M_Fs M_Attributes S_Attributes P_Attributes M_Container S_Container P_Container P_Container2 P_Container3
  M_PyGroup S_PyGroup P_PyGroup P_PyGroup2 P_PyGroup3.
Import ListNotations.
Local Open Scope list_scope.
Local Open Scope N_scope.

Lemma walk_app B (func : list (string * pyobj) -> string -> pyobj -> option B) l1 : forall calls l2,
  walk func calls (l1 ++ l2) =
  match walk func calls l1 with (c, Some b) => (c, Some b) | (c, None) => walk func c l2 end.
Proof.
  induction l1 as [|[n x] l1 IH]; intros calls l2; [reflexivity|]. cbn [walk List.app].
  destruct (func calls n x); [reflexivity|apply IH].
Qed.

Lemma relative_app r : forall k, relative r (r ++ k) = k.
Proof. induction r as [|a r IH]; intros k; [reflexivity|]. cbn. rewrite String.eqb_refl. apply IH. Qed.
Lemma join_path_name k : join_path k = name_of k.
Proof. induction k as [|a [|b r] IH]; [reflexivity|reflexivity|]. cbn [join_path]. cbn [join_path] in IH. rewrite IH. reflexivity. Qed.
Lemma relative_path_app r k : k <> [] -> relative_path r (r ++ k) = name_of k.
Proof. intros N. unfold relative_path. rewrite relative_app. destruct k; [congruence|apply join_path_name]. Qed.

Lemma name_of_inj k k' : k <> [] -> k' <> [] -> Forall proper k -> Forall proper k' -> name_of k = name_of k' -> k = k'.
Proof. intros N N' P P' E. rewrite <- (split_name N P), <- (split_name N' P'). now rewrite E. Qed.

Lemma getitem_path s g a x : proper a -> py_getitem s g a = Ok x ->
  obj_path x = h_path (pg_handle g) ++ [a] /\ fs_isdir s (h_path (pg_handle g) ++ [a]) = true.
Proof.
  intros P I. assert (PK : Forall proper [a]) by now constructor. change (py_getitem s g (name_of [a]) = Ok x) in I.
  rewrite (@getitem_plain s g [a] ltac:(discriminate) PK) in I.
  destruct fs_isdir; [|discriminate I]. split; [|reflexivity].
  destruct is_sub_group as [[|]| |]; cbn [bind] in I; try discriminate I; [now inversion I|].
  destruct open_dataset as [o| |] eqn:O; cbn [bind] in I; try discriminate I. inversion I. cbn. now destruct (open_is_at O).
Qed.

Lemma member_proper s g k x : member s g k x -> Forall proper k /\ k <> [].
Proof. induction 1; split; try discriminate; constructor; try assumption; [constructor|apply IHmember]. Qed.

Lemma member_cons s g a k x : member s g (a :: k) x -> proper a /\
  ((k = [] /\ py_getitem s g a = Ok x) \/ exists g', py_getitem s g a = Ok (PGroup g') /\ member s g' k x).
Proof. intros M. inversion M; subst; split; eauto. Qed.

Lemma NoDup_app_disjoint' A (l1 l2 : list A) : NoDup l1 -> NoDup l2 -> (forall x, In x l1 -> In x l2 -> False) -> NoDup (l1 ++ l2).
Proof.
  intros N1 N2 D. induction N1 as [|a l1 NI N1 IH]; [exact N2|]. cbn. constructor.
  - rewrite in_app_iff. intros [I|I]; [contradiction|]. apply (D a); [now left|exact I].
  - apply IH. intros x I. apply D. now right.
Qed.

Section Visit.
  Variables (s : fsys) (ls : path -> list string) (root : path).
  Hypothesis LS : listing s ls.

  (** The traversal of a group at [root ++ k0]. *)
  Definition traversal (d : nat) (g : pygroup) (k0 : path) (L : list (string * pyobj)) : Prop :=
    (forall B (func : list (string * pyobj) -> string -> pyobj -> option B) calls,
       py_visititems ls func d s root g calls = Ok (walk func calls L)) /\
    (forall n x, In (n, x) L <-> exists k, member s g k x /\ n = name_of (k0 ++ k)) /\
    NoDup (map fst L).

  Lemma names_traversal d g k0 names :
    h_path (pg_handle g) = root ++ k0 -> Forall proper k0 -> NoDup names -> Forall proper names ->
    (forall a, In a names -> is_ok (py_getitem s g a) = true) ->
    (forall a g', In a names -> py_getitem s g a = Ok (PGroup g') -> exists L, traversal d g' (k0 ++ [a]) L) ->
    exists L,
      (forall B (func : list (string * pyobj) -> string -> pyobj -> option B) calls,
         visit_names func s root g (py_visititems ls func d s root) names calls = Ok (walk func calls L)) /\
      (forall n x, In (n, x) L <-> exists a k, In a names /\ member s g (a :: k) x /\ n = name_of (k0 ++ a :: k)) /\
      NoDup (map fst L).
  Proof.
    intros HP PK. induction names as [|a names IH]; intros ND PN OK SUB.
    - exists []. split; [reflexivity|]. split; [|constructor]. intros n x. split; [intros []|intros [a [k [[] _]]]].
    - inversion ND as [|? ? NI ND']; subst. inversion PN as [|? ? Pa PN']; subst.
      destruct IH as [L [V [IL NL]]]; try assumption.
      { intros b I. apply OK. now right. }
      { intros b g' I. apply SUB. now right. }
      assert (OKa := OK a (or_introl eq_refl)). destruct (py_getitem s g a) as [x| |] eqn:GI; try discriminate OKa.
      destruct (getitem_path Pa GI) as [XP _]. rewrite HP, <- app_assoc in XP.
      assert (RP : relative_path root (obj_path x) = name_of (k0 ++ [a])).
      { rewrite XP. apply relative_path_app. intros E. apply app_eq_nil in E. destruct E; discriminate. }
      assert (SUBL : exists Ls, match x with PGroup g' => traversal d g' (k0 ++ [a]) Ls | PDataset _ => Ls = [] end).
      { destruct x as [g'|o]; [|now exists []]. apply (SUB a g' (or_introl eq_refl)). exact GI. }
      destruct SUBL as [Ls HL].
      assert (INS : forall n y, In (n, y) Ls <-> exists k, k <> [] /\ member s g (a :: k) y /\ n = name_of (k0 ++ a :: k)).
      { intros n y. destruct x as [g'|o].
        - destruct HL as [_ [IS _]]. rewrite IS. split; intros [k [M E]].
          + exists k. split; [apply (member_proper M)|]. split; [|now rewrite <- app_assoc in E].
            now apply (@member_below s g a g' k y).
          + destruct E as [M' E]. exists k. rewrite <- app_assoc. split; [|exact E].
            destruct (member_cons M') as [_ [[-> _]|[g2 [G2 M2]]]]; [congruence|]. rewrite GI in G2. inversion G2; subst. exact M2.
        - subst Ls. split; [intros []|]. intros [k [N [M _]]]. destruct (member_cons M) as [_ [[-> _]|[g2 [G2 _]]]]; congruence. }
      assert (DIFF : forall k b k', Forall proper (b :: k') -> Forall proper (a :: k) -> b <> a ->
                name_of (k0 ++ b :: k') <> name_of (k0 ++ a :: k)).
      { intros k b k' P1 P2 NE E. apply name_of_inj in E.
        - apply app_inv_head in E. congruence.
        - intros X. apply app_eq_nil in X. now destruct X.
        - intros X. apply app_eq_nil in X. now destruct X.
        - now apply Forall_app.
        - now apply Forall_app. }
      exists ((name_of (k0 ++ [a]), x) :: Ls ++ L). split; [|split].
      + intros B func calls. cbn [visit_names]. rewrite GI. cbn [bind]. rewrite RP. cbn [walk].
        destruct (func calls (name_of (k0 ++ [a])) x); [reflexivity|].
        destruct x as [g'|o].
        * destruct HL as [HV _]. rewrite HV. cbn [bind]. rewrite walk_app.
          destruct (walk func _ Ls) as [c [b|]]; [reflexivity|apply V].
        * subst Ls. cbn [List.app]. apply V.
      + intros n y. cbn [In]. rewrite in_app_iff, INS, IL. split.
        * intros [E|[[k [N [M E]]]|[b [k [I [M E]]]]]].
          -- inversion E; subst. exists a, []. split; [now left|]. split; [now apply member_child|reflexivity].
          -- exists a, k. split; [now left|]. now split.
          -- exists b, k. split; [now right|]. now split.
        * intros [b [k [[<-|I] [M E]]]].
          -- destruct k as [|c k].
             ++ left. destruct (member_cons M) as [_ [[_ G2]|[g2 [_ M2]]]]; [congruence|]. destruct (member_proper M2). congruence.
             ++ right. left. exists (c :: k). split; [discriminate|]. now split.
          -- right. right. now exists b, k.
      + cbn [map fst]. rewrite map_app. constructor.
        * rewrite in_app_iff. intros [I|I]; apply in_map_iff in I; destruct I as [[n y] [E I]]; cbn [fst] in E; subst n.
          -- apply INS in I. destruct I as [k [N [M E]]]. destruct (member_proper M) as [PM _]. apply name_of_inj in E.
             ++ apply app_inv_head in E. inversion E. congruence.
             ++ intros X. apply app_eq_nil in X. now destruct X.
             ++ intros X. apply app_eq_nil in X. now destruct X.
             ++ apply Forall_app. split; [assumption|now constructor].
             ++ now apply Forall_app.
          -- apply IL in I. destruct I as [b [k [I [M E]]]]. destruct (member_proper M) as [PM _]. symmetry in E. revert E.
             apply DIFF; [exact PM|now constructor|]. intros ->. contradiction.
        * apply NoDup_app_disjoint'.
          -- destruct x; [apply HL|subst Ls; constructor].
          -- exact NL.
          -- intros m I1 I2. apply in_map_iff in I1, I2. destruct I1 as [[n1 y1] [E1 I1]], I2 as [[n2 y2] [E2 I2]]. cbn [fst] in *. subst n1 n2.
             apply INS in I1. apply IL in I2. destruct I1 as [k [N [M E]]], I2 as [b [k' [I2 [M2 E2]]]].
             destruct (member_proper M) as [PM _], (member_proper M2) as [PM2 _]. rewrite E in E2. symmetry in E2. revert E2.
             apply DIFF; try assumption. intros ->. contradiction.
  Qed.

  Lemma group_traversal d : forall g k0,
    h_path (pg_handle g) = root ++ k0 -> Forall proper k0 -> all_readable s ls g ->
    (forall k g', member s g k (PGroup g') -> (List.length k < d)%nat) -> (0 < d)%nat ->
    exists L, traversal d g k0 L.
  Proof using LS.
    induction d as [|d IH]; intros g k0 HP PK AR DP D0; [lia|].
    destruct LS as [LS1 LS2]. destruct (LS1 (h_path (pg_handle g))) as [ND IN].
    destruct (@names_traversal d g k0 (ls (h_path (pg_handle g))) HP PK ND) as [L [V [IL NL]]].
    - apply Forall_forall. intros a I. now apply (LS2 _ a I).
    - intros a I. apply AR; [now left|exact I].
    - intros a g' I GI. assert (Pa := LS2 _ a I). destruct (getitem_path Pa GI) as [XP _]. cbn [obj_path] in XP.
      apply IH.
      + now rewrite XP, HP, app_assoc.
      + apply Forall_app. split; [exact PK|now constructor].
      + intros g2 G2 b Ib. apply AR; [|exact Ib]. right. destruct G2 as [-> | [k M]].
        * exists [a]. now apply member_child.
        * exists (a :: k). now apply (@member_below s g a g' k).
      + intros k g2 M. assert (X := DP (a :: k) g2 (@member_below s g a g' k _ Pa GI M)). cbn in X. lia.
      + assert (X := DP [a] g' (@member_child s g a _ Pa GI)). cbn in X. lia.
    - exists L. split; [|split; [|exact NL]].
      + intros B func calls. cbn [py_visititems]. apply V.
      + intros n x. rewrite IL. split.
        * intros [a [k [_ [M E]]]]. exists (a :: k). now split.
        * intros [[|a k] [M E]]; [now destruct (member_proper M)|]. exists a, k. split; [|now split].
          apply IN. destruct (member_cons M) as [Pa [[_ G2]|[g2 [G2 _]]]]; apply (getitem_path Pa G2).
  Qed.
End Visit.

Theorem visititems_visits s ls g d : listing s ls -> all_readable s ls g ->
  (forall k g', member s g k (PGroup g') -> (List.length k < d)%nat) -> (0 < d)%nat ->
  exists L,
    (forall B (func : list (string * pyobj) -> string -> pyobj -> option B),
       py_visititems ls func d s (h_path (pg_handle g)) g [] = Ok (walk func [] L)) /\
    (forall n x, In (n, x) L <-> exists k, member s g k x /\ n = name_of k) /\
    NoDup (map fst L).
Proof.
  intros LS AR DP D0. destruct (@group_traversal s ls (h_path (pg_handle g)) LS d g []) as [L [V [I N]]]; try assumption.
  - now rewrite app_nil_r.
  - constructor.
  - exists L. split; [|split; [exact I|exact N]]. intros B func. apply V.
Qed.
