(** Proofs about parents, names and files of Python objects: names and places. *)
From Coq Require Import ZArith Ascii String Lia.
From Verif Require Import M_Base P_Base M_Double M_Json M_Mode M_Key S_Text P_Key M_Blocking M_Metadata S_Metadata P_Metadata
  M_Fs M_Attributes S_Attributes P_Attributes M_Container S_Container P_Container P_Container2 P_Container3
  M_PyGroup S_PyGroup P_PyGroup P_PyGroup2 P_PyGroup3 P_PyGroup5 P_PyGroup7 P_PyGroup8 P_PyGroup10 M_PyParent S_PyParent P_PyParent.
Import ListNotations.
Local Open Scope list_scope.
Local Open Scope nat_scope.

(** * Where calls find or put objects *)

Lemma make_at h ka md o : make_dataset h ka md = Ok o -> op_path o = h_path h /\ op_mode o = h_mode h.
Proof.
  unfold make_dataset. destruct mk_blocking; cbn [bind]; try discriminate. destruct element_fill; cbn [bind]; try discriminate.
  destruct init_compressor; cbn [bind]; try discriminate. intros E. inversion E. now split.
Qed.
Lemma create_at root key dn sh ch cn op fill delim fmt enc shard s s' o :
  create_dataset root key dn sh ch cn op fill delim fmt enc shard s = (s', Ok o) -> op_path o = h_path root ++ key /\ op_mode o = h_mode root.
Proof.
  unfold create_dataset, fs_create_dataset. unfold fbind at 1, freading at 1. destruct is_zarr_group; try discriminate.
  unfold fbind at 1, fret at 1. destruct create_metadata as [md| |]; try discriminate.
  unfold fbind at 1. destruct (node_create _ s) as [s1 [u| |]]; try discriminate.
  unfold fbind at 1. destruct (write_dataset_metadata _ _ _) as [s2 [v| |]]; try discriminate.
  unfold fret. intros E. inversion E. now apply make_at in H1.
Qed.
Lemma h_create_group_at h name fmt s s' h' : h_create_group h name fmt s = (s', Ok h') -> h' = Handle (join_name (h_path h) name) (h_mode h).
Proof.
  unfold h_create_group. unfold fbind at 1, freading at 1. destruct is_zarr_group; try discriminate.
  unfold fbind at 1. destruct (node_create _ s) as [s1 [u| |]]; try discriminate.
  unfold fbind at 1. destruct (write_group_metadata _ _ _ _) as [s2 [v| |]]; try discriminate.
  unfold fret. intros E. now inversion E.
Qed.

(** The object [x] is at [key] in the group [g]. *)
Definition placed (g : pygroup) (key : path) (x : pyobj) : Prop :=
  obj_path x = h_path (pg_handle g) ++ key /\ obj_name x = (pg_name g ++ "/" ++ name_of key)%string /\ obj_mode x = h_mode (pg_handle g).

Lemma obtained_placed g key x : key <> [] -> Forall proper key -> obtained g (name_of key) x -> placed g key x.
Proof.
  intros K P O. unfold placed. inversion O as [s y E|s s' g' E|s s' g' E|a s s' d E|sh a s s' d E]; subst.
  - rewrite (getitem_plain s g K P) in E. destruct (fs_isdir _ _); try discriminate E.
    destruct (is_sub_group _ _ _) as [[|]| |]; cbn [bind] in E; try discriminate E.
    + inversion E; subst. cbn. now repeat split.
    + destruct (open_dataset _ _ _) as [o| |] eqn:D; cbn [bind] in E; try discriminate E. inversion E; subst. cbn.
      destruct (open_is_at D) as [D1 D2]. now repeat split.
  - unfold py_create_group in E. destruct (negb _) eqn:W; try discriminate E. destruct (py_contains _ _ _); try discriminate E.
    unfold fbind at 1 in E. destruct (h_create_group _ _ _ s) as [s1 [h| |]] eqn:C; try discriminate E. unfold fret in E.
    inversion E; subst. apply h_create_group_at in C. subst h. cbn. rewrite (join_plain _ K P). now repeat split.
  - unfold py_require_group in E. destruct (py_contains _ _ _).
    + unfold fbind at 1, freading at 1 in E. destruct (h_is_sub_group _ _ _) as [[|]| |]; try discriminate E. unfold fret in E.
      inversion E; subst. cbn. rewrite (join_plain _ K P). now repeat split.
    + destruct (negb _) eqn:W; try discriminate E.
      unfold fbind at 1 in E. destruct (h_create_group _ _ _ s) as [s1 [h| |]] eqn:C; try discriminate E. unfold fret in E.
      inversion E; subst. apply h_create_group_at in C. subst h. cbn. rewrite (join_plain _ K P). now repeat split.
  - destruct (create_in_inv K P E) as [sh [ty [ch [z [comp [copts [op [delim [enc [shard M]]]]]]]]]].
    destruct (create_at (mi_create M)) as [A B]. cbn. rewrite (mi_name M). now repeat split.
  - unfold py_require_dataset in E. destruct (h_has _ _ _).
    + unfold freading in E. apply (f_equal snd) in E. cbn [snd] in E. rename E into E2. destruct (h_is_sub_group _ _ _) as [[|]| |]; cbn [bind] in E2; try discriminate E2.
      destruct (py_open_dataset s g (name_of key)) as [d'| |] eqn:D; cbn [bind] in E2; try discriminate E2.
      do 3 (destruct (negb _) in E2; [discriminate E2|]). assert (d' = d) by congruence. subst d'.
      unfold py_open_dataset in D. rewrite (open_plain K P) in D. destruct (open_dataset _ _ _) as [o| |] eqn:D'; cbn [bind] in D; try discriminate D.
      inversion D; subst. cbn. destruct (open_is_at D') as [D1 D2]. now repeat split.
    + destruct (negb _) eqn:W; try discriminate E.
      destruct (create_in_inv K P E) as [sh' [ty [ch [z [comp [copts [op [delim [enc [shard M]]]]]]]]]].
      destruct (create_at (mi_create M)) as [A B]. cbn. rewrite (mi_name M). now repeat split.
Qed.

Lemma placed_direct g a x : proper a -> placed g [a] x -> directly_in g a x.
Proof. intros P [A [B C]]. unfold directly_in. cbn in B. tauto. Qed.

(** * Names *)

Definition proper_name (n : string) : Prop := exists key, key <> [] /\ Forall proper key /\ n = name_of key.
Lemma proper_proper a : proper a -> proper_name a.
Proof. intros P. exists [a]. split; [discriminate|]. split; [now constructor|reflexivity]. Qed.

Lemma absolute_deep key : absolute_name key = deep_name "" key.
Proof. destruct key as [|a r]; [reflexivity|]. rewrite deep_name_eq by discriminate. reflexivity. Qed.
Lemma deep_app k1 : forall n k2, deep_name n (k1 ++ k2) = deep_name (deep_name n k1) k2.
Proof. induction k1 as [|a r IH]; intros n k2; [reflexivity|]. apply IH. Qed.
Lemma absolute_app k1 k2 : k2 <> [] -> (absolute_name k1 ++ "/" ++ name_of k2)%string = absolute_name (k1 ++ k2).
Proof. intros K. rewrite !absolute_deep, deep_app, (deep_name_eq _ K). reflexivity. Qed.

Lemma ordered_places m : ordered proper_name m -> forall k i x, i < k -> at_address m i x ->
  exists r f key, py_file m i r /\ at_address m r (PGroup f) /\ pg_name f = ""%string /\ Forall proper key /\
    obj_path x = h_path (pg_handle f) ++ key /\ obj_name x = absolute_name key /\ obj_mode x = h_mode (pg_handle f).
Proof.
  intros O. induction k as [|k IH]; intros i x L [p X]; [lia|].
  assert (PP : py_parent m i = Some p) by (unfold py_parent; rewrite X; reflexivity).
  destruct (O i _ X) as [[P [g [G N]]]|[P [g [n [G [[key [K [Pk ->]]] B]]]]]]; cbn [nd_parent nd_obj] in *.
  - subst p x. exists i, g, []. split; [now apply file_own|]. split; [now exists i|]. split; [exact N|]. split; [constructor|].
    cbn. rewrite app_nil_r. now repeat split.
  - apply group_at_address in G. destruct (IH p (PGroup g) ltac:(lia) G) as [r [f [key0 [F [A [N [P0 [E1 [E2 E3]]]]]]]]].
    destruct (obtained_placed K Pk B) as [D1 [D2 D3]]. cbn in E1, E2, E3.
    exists r, f, (key0 ++ key). split; [apply (file_child r PP); [lia|exact F]|]. split; [exact A|]. split; [exact N|].
    split; [apply Forall_app; now split|]. split; [rewrite D1, E1, app_assoc; reflexivity|].
    split; [rewrite D2, E2; now apply absolute_app|congruence].
Qed.

Lemma absolute_strip key : Forall proper key ->
  match rstrip (lstrip (absolute_name key)) with EmptyString => [] | rel => split_slash rel "" end = key.
Proof.
  intros P. destruct key as [|a r]; [reflexivity|]. unfold absolute_name.
  rewrite strip_name by (discriminate || exact P).
  assert (S : split_slash (name_of (a :: r)) "" = a :: r) by (apply split_name; [discriminate|exact P]).
  destruct (name_of (a :: r)) eqn:E; [|exact S].
  exfalso. inversion P as [|? ? [N _] _]; subst. destruct r; cbn in E; [congruence|destruct a; [congruence|discriminate E]].
Qed.

Lemma unpickle_parts m i a : ordered proper_name m -> In a (looked_up m (CUnpickle i)) -> proper a.
Proof.
  intros O. cbn [looked_up]. destruct (nth_error m i) as [[x p]|] eqn:X; [|intros []]. cbn [nd_obj].
  destruct (ordered_places O (Nat.lt_succ_diag_r i) (ex_intro _ p X)) as [r [f [key [_ [_ [_ [P [_ [E _]]]]]]]]].
  rewrite E, (absolute_strip P). intros I. rewrite Forall_forall in P. now apply P.
Qed.

Lemma dataset_parts m i n a key : key <> [] -> Forall proper key -> n = name_of key -> Forall proper (looked_up m (CCreateDataset i n a)).
Proof.
  intros K P ->. cbn [looked_up]. rewrite (lstrip_plain K P), (split_name K P).
  rewrite (app_removelast_last ""%string K) in P.
  destruct (removelast key) as [|b front] eqn:R; [|exact P].
  assert (key = [last key ""%string]) as E by (rewrite (app_removelast_last ""%string K) at 1; now rewrite R).
  rewrite E. cbn in *. exact P.
Qed.

Lemma stepwise_proper c : stepwise_call c -> proper_call c.
Proof.
  destruct c; cbn; intros H n0 E; try discriminate E; try (apply proper_proper, H; exact E).
  inversion E; subst. exact H.
Qed.

Lemma proper_looked_up m c : ordered proper_name m -> proper_call c -> Forall proper_name (looked_up m c).
Proof.
  intros O P. destruct c as [h ext uz fmt sep|i n|i n|i n|i n a|i n sh a|i]; cbn [looked_up].
  - constructor.
  - constructor; [apply P; reflexivity|constructor].
  - constructor; [apply P; reflexivity|constructor].
  - constructor; [apply P; reflexivity|constructor].
  - destruct (P n Logic.eq_refl) as [key [K [Pk E]]]. eapply Forall_impl; [exact proper_proper|]. exact (dataset_parts m i a K Pk E).
  - constructor; [apply P; reflexivity|constructor].
  - apply Forall_forall. intros b I. apply proper_proper. eapply unpickle_parts; eauto.
Qed.
Lemma history_proper m l : history proper_call m l -> ordered proper_name m.
Proof. apply history_ordered. intros. now apply proper_looked_up. Qed.

Theorem places m l i x : history proper_call m l -> at_address m i x ->
  exists r f key, py_file m i r /\ at_address m r (PGroup f) /\ pg_name f = ""%string /\ Forall proper key /\
    obj_path x = h_path (pg_handle f) ++ key /\ obj_name x = absolute_name key /\ obj_mode x = h_mode (pg_handle f).
Proof. intros H X. exact (ordered_places (history_proper H) (Nat.lt_succ_diag_r i) X). Qed.

(** * Parents contain their children *)

Lemma ordered_weaken (N N' : string -> Prop) m : (forall n, N n -> N' n) -> ordered N m -> ordered N' m.
Proof.
  intros W O i x X. destruct (O i x X) as [L|[P [g [n [G [Y B]]]]]]; [now left|right]. split; [exact P|]. exists g, n. auto.
Qed.
Lemma history_stepwise m l : history stepwise_call m l -> ordered proper m.
Proof.
  apply history_ordered. intros m0 c O P. destruct c as [h ext uz fmt sep|i n|i n|i n|i n a|i n sh a|i].
  - constructor.
  - constructor; [apply P; reflexivity|constructor].
  - constructor; [apply P; reflexivity|constructor].
  - constructor; [apply P; reflexivity|constructor].
  - destruct P as [key [K [Pk E]]]. exact (dataset_parts m0 i a K Pk E).
  - constructor; [apply P; reflexivity|constructor].
  - apply Forall_forall. intros b I. eapply unpickle_parts; [|exact I]. eapply ordered_weaken; [exact proper_proper|exact O].
Qed.

Theorem contained m l i p x : history stepwise_call m l -> at_address m i x -> py_parent m i = Some p -> p <> i ->
  exists g a, at_address m p (PGroup g) /\ directly_in g a x.
Proof.
  intros H [q X] P D. assert (q = p) by (unfold py_parent in P; rewrite X in P; cbn in P; congruence). subst q.
  destruct (history_stepwise H X) as [[E _]|[_ [g [n [G [Y B]]]]]]; cbn [nd_parent nd_obj] in *; [congruence|].
  exists g, n. split; [now apply group_at_address|]. apply placed_direct; [exact Y|].
  apply obtained_placed; [discriminate|now constructor|exact B].
Qed.

(** What create_dataset and unpickling return. *)
Lemma well_app m e j : well_placed m j -> well_placed (m ++ e) j.
Proof.
  intros [x [p [X [P D]]]]. exists x, p. split; [now apply at_app|]. split; [now apply parent_app|].
  intros N. destruct (D N) as [g [a [G I]]]. exists g, a. split; [now apply at_app|exact I].
Qed.
Lemma child_well {A} m i (mk : A -> pyobj) g a r s' m' j : group_at m i = Ok g -> proper a ->
  (forall s x, r = (s, Ok x) -> obtained g a (mk x)) -> child_of m i mk r = (s', m', Ok j) -> well_placed m' j.
Proof.
  intros G P O C. destruct (child_result C) as [x [R [-> ->]]]. exists (mk x), i. split; [apply new_at|]. split; [apply new_parent|].
  intros _. exists g, a. split; [now apply at_app, group_at_address|]. apply placed_direct; [exact P|].
  apply obtained_placed; [discriminate|now constructor|]. eapply O; eauto.
Qed.
Lemma navigate_well parts : Forall proper parts -> forall i s m s' m' j, well_placed m i ->
  do_navigate parts i s m = (s', m', Ok j) -> well_placed m' j.
Proof.
  induction 1 as [|x r Hx Hr IH]; intros i s m s' m' j W; cbn [do_navigate].
  - intros E; inversion E; now subst.
  - destruct (group_at m i) as [g|e|] eqn:G; try discriminate.
    destruct (child_of m i (fun y => y) (s, py_getitem s g x)) as [[s1 m1] o1] eqn:C. destruct o1 as [k|e|]; try discriminate.
    intros E. eapply IH; [|exact E]. eapply child_well; eauto. intros s0 y R. inversion R; subst. eapply ob_get; eauto.
Qed.

Lemma call_well c s m s' m' j : ordered proper_name m -> proper_call c -> run_call c s m = (s', m', Ok j) ->
  match c with CCreateDataset _ _ _ | CUnpickle _ => True | _ => False end -> well_placed m' j.
Proof.
  intros O P R S. destruct c as [h ext uz fmt sep|i n|i n|i n|i n a|i n sh a|i]; try destruct S; cbn [run_call] in R.
  - destruct (group_at m i) as [g|e|] eqn:G; try discriminate R. destruct (P n Logic.eq_refl) as [key [K [Pk E]]].
    pose proof (dataset_parts m i a K Pk E) as F. cbn [looked_up] in F. unfold do_create_dataset in R.
    destruct (py_may_create g n s) as [s1 [u|e|]]; try discriminate R.
    destruct (removelast (split_slash (lstrip n) "")) as [|x front].
    + inversion F; subst. eapply child_well; eauto. intros s0 y Q. eapply ob_dataset; eauto.
    + apply Forall_app in F as [F1 F2]. inversion F2; subst.
      destruct (do_require_groups (x :: front) i s1 m) as [[s2 m2] o2]. destruct o2 as [k|e|]; try discriminate R.
      destruct (group_at m2 k) as [g'|e|] eqn:G'; try discriminate R. eapply child_well; eauto.
      intros s0 y Q. unfold fbind at 1 in Q. destruct (py_may_create g' _ s2) as [s3 [u'|e|]] eqn:M'; try discriminate Q.
      eapply ob_dataset; eauto.
  - assert (F : Forall proper (looked_up m (CUnpickle i))) by (apply Forall_forall; intros b I; eapply unpickle_parts; eauto).
    cbn [looked_up] in F. destruct (nth_error m i) as [x|] eqn:Nx; try discriminate R.
    destruct (file_address m i) as [r|] eqn:FA; try discriminate R.
    destruct (group_at m r) as [f|e|] eqn:G; try discriminate R.
    destruct (child_of m (List.length m) PGroup (s, py_unpickle_file s f)) as [[s1 m1] o1] eqn:C.
    destruct o1 as [k|e|]; try discriminate R. destruct (child_result C) as [y [_ [-> ->]]].
    assert (W : well_placed (m ++ [PyNode (PGroup y) (List.length m)]) (List.length m)).
    { exists (PGroup y), (List.length m). split; [apply new_at|]. split; [apply new_parent|]. intros N. now elim N. }
    destruct (rstrip (lstrip (obj_name (nd_obj x)))) as [|ch rel]; [inversion R; now subst|].
    eapply navigate_well; eauto.
Qed.

Theorem new_contained m l c j : history proper_call m l -> In (c, j) l ->
  match c with CCreateDataset _ _ _ | CUnpickle _ => True | _ => False end -> well_placed m j.
Proof.
  intros H I. apply (@history_log proper_call (fun m c j => match c with CCreateDataset _ _ _ | CUnpickle _ => True | _ => False end -> well_placed m j))
    with (l := l) (c := c); [| |exact H|exact I].
  - intros m0 e c0 j0 W S. now apply well_app, W.
  - intros m0 l0 c0 s s' m' j0 H0 P R S. eapply call_well; eauto. eapply history_proper; eauto.
Qed.
