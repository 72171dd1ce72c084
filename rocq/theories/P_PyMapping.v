(** Proofs about Python groups as mappings. *)
From Coq Require Import ZArith Ascii String Lia.
From Verif Require Import M_Base P_Base M_Double M_Json M_Mode M_Key S_Text P_Key M_Metadata
  M_Fs M_Attributes S_Attributes P_Attributes M_Container S_Container P_Container P_Container2 P_Container3
  M_PyGroup S_PyGroup P_PyGroup P_PyGroup2 P_PyGroup3 P_PyGroup8 M_PyMapping S_PyMapping.
Import ListNotations.
Local Open Scope list_scope.
Local Open Scope N_scope.

Lemma contains_one s g a : proper a -> py_contains s g a = fs_isdir s (h_path (pg_handle g) ++ [a]).
Proof. intros P. change a with (name_of [a]) at 1. apply contains_plain; [discriminate|]. now constructor. Qed.

Lemma iter_members s ls g a : listing s ls -> (In a (py_iter ls g) <-> proper a /\ py_contains s g a = true).
Proof.
  intros [L P]. unfold py_iter. split.
  - intros I. assert (Q := P _ _ I). split; [exact Q|]. rewrite contains_one by exact Q. now apply (proj2 (L _)).
  - intros [Q C]. rewrite contains_one in C by exact Q. now apply (proj2 (L _)).
Qed.

Lemma iter_NoDup s ls g : listing s ls -> NoDup (py_iter ls g).
Proof. intros [L _]. apply L. Qed.

Lemma items_of_spec s g names : (forall a, In a names -> is_ok (py_getitem s g a) = true) ->
  exists L, items_of s g names = Ok L /\ map fst L = names /\ values_of s g names = Ok (map snd L) /\
    forall a x, In (a, x) L <-> In a names /\ py_getitem s g a = Ok x.
Proof.
  induction names as [|n r IH]; intros OK.
  - exists []. split; [reflexivity|]. split; [reflexivity|]. split; [reflexivity|]. intros a x. cbn. tauto.
  - destruct IH as [L [E [F [V I]]]]; [intros a H; apply OK; now right|].
    assert (O := OK n (or_introl Logic.eq_refl)). destruct (py_getitem s g n) as [x| |] eqn:G; try discriminate O.
    exists ((n, x) :: L). cbn [items_of values_of]. rewrite G. cbn [bind]. rewrite E, V. cbn [bind map fst snd].
    split; [reflexivity|]. split; [now rewrite F|]. split; [reflexivity|].
    intros a y. cbn [In]. rewrite I. split.
    + intros [H|[H1 H2]]; [inversion H; subst; split; [now left|exact G]|split; [now right|exact H2]].
    + intros [[->|H] K]; [left; congruence|right; now split].
Qed.

Lemma item_at_some n l x : item_at n l = Some x -> In (n, x) l.
Proof.
  induction l as [|[m y] r IH]; cbn; [discriminate|]. destruct (String.eqb_spec m n) as [->|]; intros H.
  - left. congruence.
  - right. now apply IH.
Qed.
Lemma item_at_none n l : item_at n l = None -> ~ In n (map fst l).
Proof.
  induction l as [|[m y] r IH]; cbn; [tauto|]. destruct (String.eqb_spec m n) as [->|N]; [discriminate|].
  intros H [K|K]; [contradiction|]. now apply IH.
Qed.

(** The comparison of the entries, when the comparison of groups is decided by [P]. *)
Lemma items_equal_spec (eq : pygroup -> pygroup -> outcome bool) (P : pygroup -> pygroup -> Prop) l' : forall l,
  (forall n u v, In (n, PGroup u) l -> In (n, PGroup v) l' -> exists b, eq u v = Ok b /\ (b = true <-> P u v)) ->
  exists b, items_equal eq l l' = Ok b /\
    (b = true <-> forall n x, In (n, x) l -> exists u v, x = PGroup u /\ item_at n l' = Some (PGroup v) /\ P u v).
Proof.
  induction l as [|[n x] r IH]; intros H.
  - exists true. split; [reflexivity|]. split; [intros _ ? ? []|reflexivity].
  - destruct IH as [b [E B]]; [intros m u v I1; apply (H m); now right|].
    cbn [items_equal].
    assert (NO : forall P' : Prop, ~ P' -> exists b0, Ok false = Ok b0 /\ (b0 = true <-> P')).
    { intros P' X. exists false. split; [reflexivity|]. split; [discriminate|contradiction]. }
    destruct (item_at n l') as [y|] eqn:A.
    2:{ apply NO. intros X. destruct (X n x (or_introl Logic.eq_refl)) as [u [v [_ [Y _]]]]. congruence. }
    destruct x as [u|d].
    2:{ cbn [bind]. apply NO. intros X. destruct (X n _ (or_introl Logic.eq_refl)) as [u [v [Y _]]]. discriminate Y. }
    destruct y as [v|d].
    2:{ cbn [bind]. apply NO. intros X. destruct (X n _ (or_introl Logic.eq_refl)) as [u' [v [_ [Y _]]]]. congruence. }
    destruct (H n u v (or_introl Logic.eq_refl) (item_at_some A)) as [e [Q QP]]. rewrite Q. cbn [bind]. destruct e.
    + exists b. split; [exact E|]. rewrite B. split.
      * intros X m z [I|I]; [|now apply X]. inversion I; subst m z. exists u, v. split; [reflexivity|]. split; [exact A|now apply QP].
      * intros X m z I. apply X. now right.
    + apply NO. intros X. destruct (X n _ (or_introl Logic.eq_refl)) as [u' [v' [Y1 [Y2 Y3]]]].
      inversion Y1; subst u'. rewrite A in Y2. inversion Y2; subst v'. apply QP in Y3. discriminate Y3.
Qed.

Lemma readable_child s ls g a u : proper a -> py_getitem s g a = Ok (PGroup u) -> all_readable s ls g -> all_readable s ls u.
Proof.
  intros P G A g' [->|[k M]].
  - apply A. right. exists [a]. now constructor.
  - apply A. right. exists (a :: k). now apply (@member_below s g a u k).
Qed.

Lemma readable_items s ls g : listing s ls -> all_readable s ls g ->
  exists L, py_items ls s g = Ok L /\ map fst L = py_iter ls g /\ py_values ls s g = Ok (map snd L) /\
    forall a x, In (a, x) L <-> proper a /\ py_getitem s g a = Ok x.
Proof.
  intros LS A. destruct (@items_of_spec s g (py_iter ls g)) as [L [E [F [V I]]]].
  { intros a H. apply (A g (or_introl Logic.eq_refl)). exact H. }
  exists L. split; [exact E|]. split; [exact F|]. split; [exact V|].
  intros a x. rewrite I, (@iter_members s ls g a LS). split; [tauto|]. intros [P G]. split; [|exact G]. split; [exact P|].
  rewrite contains_one by exact P. apply (getitem_path P G).
Qed.

Lemma same_keys (l l' : list (string * pyobj)) : NoDup (map fst l) -> List.length l = List.length l' ->
  incl (map fst l) (map fst l') -> incl (map fst l') (map fst l).
Proof. intros N E I. apply NoDup_length_incl; [exact N| |exact I]. rewrite !map_length. lia. Qed.

Lemma NoDup_keys_length (l l' : list (string * pyobj)) : NoDup (map fst l) -> NoDup (map fst l') ->
  incl (map fst l) (map fst l') -> incl (map fst l') (map fst l) -> List.length l = List.length l'.
Proof.
  intros N N' I I'. assert (A := NoDup_incl_length N I). assert (B := NoDup_incl_length N' I').
  rewrite !map_length in A, B. lia.
Qed.

Lemma in_keys (l : list (string * pyobj)) n : In n (map fst l) -> exists x, In (n, x) l.
Proof. intros I. apply in_map_iff in I. destruct I as [[m x] [<- I]]. now exists x. Qed.

Theorem eq_characterised s ls : listing s ls -> forall d g g',
  all_readable s ls g -> all_readable s ls g' ->
  (forall k u, member s g k (PGroup u) -> (List.length k < d)%nat) -> (0 < d)%nat ->
  exists b, py_eq ls d s g g' = Ok b /\
    (b = true <-> only_groups s g /\ only_groups s g' /\ same_names s g g').
Proof.
  intros LS. induction d as [|d IH]; intros g g' A A' D D0; [lia|].
  destruct (readable_items LS A) as [l [E [F [_ I]]]]. destruct (readable_items LS A') as [l' [E' [F' [_ I']]]].
  assert (N : NoDup (map fst l)) by (rewrite F; now apply (@iter_NoDup s)).
  assert (N' : NoDup (map fst l')) by (rewrite F'; now apply (@iter_NoDup s)).
  cbn [py_eq]. rewrite E, E'. cbn [bind].
  assert (KEY : same_names s g g' -> forall n, In n (map fst l) <-> In n (map fst l')).
  { intros SN n. split; intros H; apply in_keys in H; destruct H as [x H].
    - apply I in H. destruct H as [P G]. destruct (proj1 (SN [n])) as [y M]; [exists x; now constructor|].
      destruct (member_cons M) as [_ [[_ Y]|[u [_ M']]]]; [|inversion M'].
      apply (in_map fst l' (n, y)). apply I'. now split.
    - apply I' in H. destruct H as [P G]. destruct (proj2 (SN [n])) as [y M]; [exists x; now constructor|].
      destruct (member_cons M) as [_ [[_ Y]|[u [_ M']]]]; [|inversion M'].
      apply (in_map fst l (n, y)). apply I. now split. }
  destruct (Nat.eqb_spec (List.length l) (List.length l')) as [LE|LE].
  2:{ exists false. split; [reflexivity|]. split; [discriminate|]. intros [_ [_ SN]]. exfalso. apply LE.
      apply NoDup_keys_length; try assumption; intros n; apply KEY; exact SN. }
  destruct (@items_equal_spec (py_eq ls d s) (fun u v => only_groups s u /\ only_groups s v /\ same_names s u v) l' l) as [b [Q B]].
  { intros n u v H H'. apply I in H. apply I' in H'. destruct H as [P G]. destruct H' as [_ G'].
    assert (D1 : (0 < d)%nat). { assert (X := D [n] u ltac:(now constructor)). cbn in X. lia. }
    apply IH.
    - now apply (readable_child P G).
    - now apply (readable_child P G').
    - intros k w M. assert (X := D (n :: k) w (@member_below s g n u k _ P G M)). cbn in X. lia.
    - exact D1. }
  exists b. split; [exact Q|]. rewrite B. split.
  - intros H.
    assert (IN : incl (map fst l) (map fst l')).
    { intros n K. apply in_keys in K. destruct K as [x K]. destruct (H _ _ K) as [u [v [_ [Y _]]]].
      apply item_at_some in Y. now apply (in_map fst l' (n, PGroup v)). }
    assert (NI := same_keys N LE IN).
    assert (FWD : forall n x, proper n -> py_getitem s g n = Ok x -> exists u v, x = PGroup u /\ py_getitem s g' n = Ok (PGroup v) /\
              (only_groups s u /\ only_groups s v /\ same_names s u v)).
    { intros n x P G. destruct (H n x (proj2 (I n x) (conj P G))) as [u [v [X [Y Z]]]]. exists u, v.
      split; [exact X|]. split; [|exact Z]. apply item_at_some in Y. now apply I' in Y. }
    assert (BWD : forall n y, proper n -> py_getitem s g' n = Ok y -> exists u v, y = PGroup v /\ py_getitem s g n = Ok (PGroup u) /\
              (only_groups s u /\ only_groups s v /\ same_names s u v)).
    { intros n y P G. assert (K : In n (map fst l)). { apply NI. apply (in_map fst l' (n, y)). apply I'. now split. }
      apply in_keys in K. destruct K as [x K]. apply I in K. destruct (FWD n x P (proj2 K)) as [u [v [X [Y Z]]]].
      exists u, v. rewrite G in Y. subst x. split; [congruence|]. split; [apply K|exact Z]. }
    split; [|split].
    + intros k x M. destruct M as [g a x P G|g a u k x P G M].
      * destruct (FWD _ _ P G) as [u [v [X _]]]. now exists u.
      * destruct (FWD _ _ P G) as [u' [v [X [_ [OG _]]]]]. inversion X; subst u'. exact (OG _ _ M).
    + intros k x M. destruct M as [g' a x P G|g' a u k x P G M].
      * destruct (BWD _ _ P G) as [u [v [X _]]]. now exists v.
      * destruct (BWD _ _ P G) as [u' [v [X [_ [_ [OG _]]]]]]. inversion X; subst v. exact (OG _ _ M).
    + intros k. split; intros [x M].
      * destruct k as [|a k]; [inversion M|]. destruct (member_cons M) as [P [[-> G]|[u [G M']]]].
        -- destruct (FWD _ _ P G) as [u [v [_ [Y _]]]]. exists (PGroup v). now constructor.
        -- destruct (FWD _ _ P G) as [u' [v [X [Y [_ [_ SN]]]]]]. inversion X; subst u'.
           destruct (proj1 (SN k)) as [y My]; [now exists x|]. exists y. now apply (@member_below s g' a v k).
      * destruct k as [|a k]; [inversion M|]. destruct (member_cons M) as [P [[-> G]|[v [G M']]]].
        -- destruct (BWD _ _ P G) as [u [v [_ [Y _]]]]. exists (PGroup u). now constructor.
        -- destruct (BWD _ _ P G) as [u [v' [X [Y [_ [_ SN]]]]]]. inversion X; subst v'.
           destruct (proj2 (SN k)) as [y My]; [now exists x|]. exists y. now apply (@member_below s g a u k).
  - intros [OG [OG' SN]] n x K. assert (K0 := K). apply I in K. destruct K as [P G].
    destruct (OG [n] x ltac:(now constructor)) as [u ->].
    assert (K' : In n (map fst l')). { apply (KEY SN). now apply (in_map fst l (n, PGroup u)). }
    destruct (item_at n l') as [y|] eqn:Y; [|now apply item_at_none in Y].
    assert (G' := item_at_some Y). apply I' in G'. destruct G' as [_ G'].
    destruct (OG' [n] y ltac:(now constructor)) as [v ->]. exists u, v.
    split; [reflexivity|]. split; [reflexivity|]. split; [|split].
    + intros k z M. apply (OG (n :: k)). now apply (@member_below s g n u k).
    + intros k z M. apply (OG' (n :: k)). now apply (@member_below s g' n v k).
    + intros k. split; intros [z M].
      * destruct (proj1 (SN (n :: k))) as [y My]; [exists z; now apply (@member_below s g n u k)|].
        destruct (member_cons My) as [_ [[-> _]|[v' [G2 M2]]]]; [inversion M|].
        rewrite G' in G2. inversion G2; subst v'. now exists y.
      * destruct (proj2 (SN (n :: k))) as [y My]; [exists z; now apply (@member_below s g' n v k)|].
        destruct (member_cons My) as [_ [[-> _]|[u' [G2 M2]]]]; [inversion M|].
        rewrite G in G2. inversion G2; subst u'. now exists y.
Qed.

(** Mapping.get. *)
Lemma get_spec s g key : key <> [] -> Forall proper key ->
  (py_get s g (name_of key) = Ok None <-> fs_isdir s (h_path (pg_handle g) ++ key) = false) /\
  forall x, (py_get s g (name_of key) = Ok (Some x) <-> py_getitem s g (name_of key) = Ok x).
Proof.
  intros N P. unfold py_get. rewrite (@contains_plain key N P). destruct (fs_isdir s _) eqn:D; cbn [negb].
  - split.
    + destruct (py_getitem s g (name_of key)); cbn [bind]; split; discriminate.
    + intros x. destruct (py_getitem s g (name_of key)); cbn [bind]; split; intros H; congruence.
  - split; [tauto|]. intros x. rewrite (@getitem_plain s g key N P), D. split; discriminate.
Qed.
