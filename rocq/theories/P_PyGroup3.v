(** Proofs about the python containers: groups, deletion and absolute names. *)
From Coq Require Import ZArith Ascii String.
From Verif Require Import M_Base P_Base M_Double M_Json M_Mode M_Key S_Text P_Key M_Blocking M_Metadata S_Metadata P_Metadata
  M_Fs M_Attributes S_Attributes P_Attributes M_Container S_Container P_Container P_Container2 P_Container3
  M_PyGroup S_PyGroup P_PyGroup P_PyGroup2.
Import ListNotations.
Local Open Scope list_scope.
Local Open Scope N_scope.

(** * Groups *)

Lemma group_way root key fmt s s' q : create_group root key fmt s = (s', Ok tt) ->
  below q (h_path root ++ key) = true -> s q = None \/ s q = Some NDir.
Proof.
  unfold create_group. unfold fbind at 1, freading. destruct is_zarr_group as [z| |]; try discriminate.
  unfold fbind at 1. destruct node_create as [s1 [[]| |]] eqn:E; try discriminate.
  intros _. unfold node_create in E. cbn [h_path h_mode] in E. destruct is_mode_r; [discriminate|].
  destruct fs_exists; [discriminate|]. now apply (mkdirs_way E).
Qed.

Lemma group_grown s s' p x r z fmt : fs_ok s -> s p = Some NDir -> s (p ++ x :: r) = None ->
  (forall q, below q (p ++ x :: r) = true -> s q = None \/ s q = Some NDir) ->
  group_made s s' (p ++ x :: r) z fmt -> grown (p ++ [x]) s s'.
Proof.
  intros F D A W G. set (P := p ++ x :: r) in *.
  assert (BP : below (p ++ [x]) P = true).
  { unfold P. change (x :: r) with ([x] ++ r). rewrite app_assoc. apply below_app. }
  split.
  - intros q N. destruct (below q P) eqn:B.
    + rewrite (gm_dirs G B). destruct (W q B); congruence.
    + destruct (below P q) eqn:B2; [exfalso; apply N; exact (fs_ok_absent F A B2)|]. now apply (gm_frame G).
  - intros q N. destruct (below q P) eqn:B.
    + rewrite (gm_dirs G B). symmetry. apply (dirs_above F D).
      destruct (@prefix_cases q p x r B) as [X|X]; [exact X|congruence].
    + destruct (below P q) eqn:B2; [now rewrite (below_trans BP B2) in N|]. now apply (gm_frame G).
Qed.

(** What create_group and require_group leave behind. *)
Lemma h_create_group_found g key s s' h : key <> [] -> Forall usable key ->
  fs_ok s -> s (h_path (pg_handle g)) = Some NDir ->
  h_create_group (pg_handle g) (name_of key) (pg_format g) s = (s', Ok h) ->
  group_found s s' g key (PyGroup h (sub_name g (name_of key)) (pg_sep g) (pg_format g)) /\
  s (h_path (pg_handle g) ++ key) = None.
Proof.
  intros N U F D R. assert (P := usable_proper U).
  rewrite (create_group_plain N P) in R.
  destruct (create_group (pg_handle g) key (pg_format g) s) as [s1 [[]| |]] eqn:E; cbn in R; try discriminate R.
  inversion R; subst s1 h. clear R.
  assert (T := create_group_tree (pg_handle g) key (pg_format g) F). rewrite E in T. cbn [fst] in T.
  destruct (create_group_made F E) as [z [Z [A G]]].
  split; [|exact A]. split; try reflexivity; try assumption.
  - destruct key as [|x r]; [congruence|]. cbn [firstn].
    refine (group_grown F D A _ G). intros q B. exact (group_way E B).
  - rewrite (getitem_plain s' g N P). rewrite (isdir_some (gm_dirs G (below_refl _))).
    rewrite (new_group_is_group F (usable_key N U) E). reflexivity.
Qed.

Theorem create_group_found g key s s' g' : key <> [] -> Forall usable key ->
  fs_ok s -> s (h_path (pg_handle g)) = Some NDir ->
  py_create_group g (name_of key) s = (s', Ok g') ->
  group_found s s' g key g' /\ s (h_path (pg_handle g) ++ key) = None.
Proof.
  intros N U F D R. unfold py_create_group in R. destruct (negb _) in R; [discriminate R|].
  destruct py_contains in R; [discriminate R|]. unfold fbind in R.
  destruct h_create_group as [s1 [h| |]] eqn:E; cbn in R; try discriminate R. inversion R; subst.
  now apply h_create_group_found.
Qed.

Theorem require_group_found g key s s' g' : key <> [] -> Forall usable key ->
  fs_ok s -> s (h_path (pg_handle g)) = Some NDir ->
  py_require_group g (name_of key) s = (s', Ok g') ->
  group_found s s' g key g' /\
  (py_contains s g (name_of key) = true -> s' = s /\ py_getitem s g (name_of key) = Ok (PGroup g')).
Proof.
  intros N U F D R. assert (P := usable_proper U). unfold py_require_group in R.
  destruct py_contains eqn:C in R.
  - unfold fbind, freading in R. rewrite (is_sub_group_plain N P) in R.
    destruct is_sub_group as [[|]| |] eqn:E; cbn in R; try discriminate R. inversion R; subst.
    unfold py_subgroup. rewrite (join_plain _ N P).
    assert (I : py_getitem s' g (name_of key) = Ok (PGroup (PyGroup (Handle (h_path (pg_handle g) ++ key) (h_mode (pg_handle g)))
                  (sub_name g (name_of key)) (pg_sep g) (pg_format g)))).
    { rewrite (getitem_plain s' g N P). rewrite (contains_plain N P) in C. now rewrite C, E. }
    split; [|tauto]. split; try reflexivity; try assumption. apply grown_refl.
  - split; [|congruence]. destruct (negb _) in R; [discriminate R|]. unfold fbind in R.
    destruct h_create_group as [s1 [h| |]] eqn:E; cbn in R; try discriminate R. inversion R; subst.
    now apply h_create_group_found.
Qed.

(** A second require_group returns the same group and changes nothing. *)
Theorem require_group_twice g key s s' g' : key <> [] -> Forall usable key ->
  fs_ok s -> s (h_path (pg_handle g)) = Some NDir ->
  py_require_group g (name_of key) s = (s', Ok g') ->
  py_require_group g (name_of key) s' = (s', Ok g').
Proof.
  intros N U F D R. destruct (require_group_found N U F D R) as [G _]. assert (P := usable_proper U).
  assert (I := gf_item G). assert (C : py_contains s' g (name_of key) = true).
  { unfold py_getitem in I. destruct py_contains; [reflexivity|discriminate I]. }
  unfold py_require_group. rewrite C. unfold fbind, freading. rewrite (is_sub_group_plain N P).
  rewrite (getitem_plain s' g N P) in I. rewrite (contains_plain N P) in C. rewrite C in I.
  destruct is_sub_group as [[|]| |]; cbn [bind] in I; try discriminate I.
  - inversion I. cbn. unfold py_subgroup. now rewrite (join_plain _ N P).
  - destruct open_dataset; discriminate I.
Qed.

(** * Deletion *)

Lemma open_is_at s h key o : open_dataset s h key = Ok o -> op_path o = h_path h ++ key /\ op_mode o = h_mode h.
Proof.
  unfold open_dataset. destruct is_zarr_group as [z| |]; cbn [bind]; try discriminate.
  destruct (if z then _ else _) as [ka| |]; cbn [bind]; try discriminate.
  unfold fs_open_dataset. destruct (negb _); [discriminate|]. destruct read_dataset_metadata as [m| |]; cbn [bind]; try discriminate.
  unfold make_dataset. destruct mk_blocking; cbn [bind]; try discriminate. destruct element_fill; cbn [bind]; try discriminate.
  destruct init_compressor; cbn [bind]; try discriminate. intros E. inversion E. now split.
Qed.

Theorem delitem_removes g key s s' : key <> [] -> Forall proper key ->
  py_delitem g (name_of key) s = (s', Ok tt) ->
  s (h_path (pg_handle g) ++ key) = Some NDir /\
  (forall q, s' q = if below (h_path (pg_handle g) ++ key) q then None else s q).
Proof.
  intros N P R. unfold py_delitem in R. destruct (can_write (h_mode (pg_handle g))) eqn:CW; [|discriminate R]. cbn [negb] in R.
  destruct (py_contains s g (name_of key)) eqn:C; [|discriminate R]. cbn [negb] in R.
  assert (C' := C). rewrite (contains_plain N P) in C'.
  assert (D : s (h_path (pg_handle g) ++ key) = Some NDir).
  { unfold fs_isdir in C'. destruct (s (h_path (pg_handle g) ++ key)) as [[| |]|]; congruence. }
  split; [exact D|].
  assert (X : forall m, node_remove (Handle (h_path (pg_handle g) ++ key) m) s = (s', Ok tt) -> can_write m = true ->
    forall q, s' q = if below (h_path (pg_handle g) ++ key) q then None else s q).
  { intros m E W. destruct (@remove_exact (Handle (h_path (pg_handle g) ++ key) m) s W) as [s2 [E2 Q]].
    - cbn [h_path]. congruence.
    - rewrite E2 in E. inversion E; subst. exact Q. }
  unfold fbind at 1, freading in R. rewrite (lstrip_plain N P), (is_sub_group_plain N P) in R.
  destruct is_sub_group as [[|]| |] eqn:SG; cbn [bind] in R; try discriminate R.
  - unfold py_subgroup in R. rewrite (join_plain _ N P) in R. cbn [pg_handle] in R. now apply (X _ R).
  - unfold fbind in R. rewrite (getitem_plain s g N P), C', SG in R. cbn [bind] in R.
    destruct (open_dataset s (pg_handle g) key) as [o| |] eqn:O; cbn [bind] in R; try discriminate R. cbn [pd_impl] in R.
    destruct (open_is_at O) as [E1 E2]. rewrite E1, E2 in R. now apply (X _ R).
Qed.

Lemma delitem_fails g name s s' r : py_delitem g name s = (s', r) -> r <> Ok tt -> s' = s.
Proof.
  assert (X : forall h, node_remove h s = (s', r) -> r <> Ok tt -> s' = s).
  { intros h. unfold node_remove. destruct (negb _); [intros E; now inversion E|].
    destruct (negb _); [intros E; now inversion E|]. unfold fs_remove_all. intros E. inversion E; subst. congruence. }
  unfold py_delitem. destruct (negb _); [intros E; now inversion E|].
  destruct (negb _); [intros E; now inversion E|]. unfold fbind at 1, freading.
  destruct h_is_sub_group as [[|]| |]; try (intros E; now inversion E); [apply X|].
  unfold fbind. destruct py_getitem as [[|]| |]; try (intros E; now inversion E). apply X.
Qed.

Theorem delitem_gone g key s s' : key <> [] -> Forall proper key ->
  py_delitem g (name_of key) s = (s', Ok tt) -> py_contains s' g (name_of key) = false.
Proof.
  intros N P R. destruct (delitem_removes N P R) as [_ Q]. rewrite (contains_plain N P). unfold fs_isdir.
  now rewrite Q, below_refl.
Qed.

(** Deletion succeeds for every member that can be looked up. *)
Theorem delitem_succeeds g key s x : key <> [] -> Forall proper key ->
  can_write (h_mode (pg_handle g)) = true -> py_getitem s g (name_of key) = Ok x ->
  snd (py_delitem g (name_of key) s) = Ok tt.
Proof.
  intros N P W I. unfold py_delitem. rewrite W. cbn [negb]. assert (I' := I). unfold py_getitem in I'.
  destruct (py_contains s g (name_of key)) eqn:C; [|discriminate I']. cbn [negb]. cbn [negb] in I'.
  rewrite (contains_plain N P) in C.
  assert (E : fs_exists s (h_path (pg_handle g) ++ key) = true).
  { unfold fs_isdir in C. unfold fs_exists. destruct (s (h_path (pg_handle g) ++ key)) as [[| |]|]; congruence. }
  unfold fbind at 1, freading. rewrite (lstrip_plain N P), (is_sub_group_plain N P) in *.
  destruct is_sub_group as [[|]| |] eqn:SG; cbn [bind] in *; try discriminate I'.
  - unfold py_subgroup, node_remove. cbn [pg_handle h_mode h_path]. rewrite (join_plain _ N P), W, E. reflexivity.
  - unfold fbind. rewrite I. unfold py_open_dataset in I'. rewrite (open_plain N P) in I'.
    destruct (open_dataset s (pg_handle g) key) as [o| |] eqn:O; cbn [bind] in I'; try discriminate I'.
    inversion I'; subst. cbn [pd_impl]. destruct (open_is_at O) as [E1 E2]. unfold node_remove. cbn [h_mode h_path].
    now rewrite E1, E2, W, E.
Qed.
