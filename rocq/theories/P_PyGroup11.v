(** Proofs about the python containers: absolute names, names of attributes, new
    objects and pickling. *)
From Coq Require Import ZArith Ascii String.
From Verif Require Import M_Base P_Base M_Double M_Json M_Mode M_Key S_Text P_Key M_Blocking M_Metadata S_Metadata P_Metadata
  M_Fs M_Attributes S_Attributes P_Attributes M_Container S_Container P_Container P_Container2 P_Container3
  M_PyGroup S_PyGroup P_PyGroup P_PyGroup2 P_PyGroup3 P_PyGroup5 P_PyGroup7 P_PyGroup8 P_PyGroup10.
Import ListNotations.
Local Open Scope list_scope.
Local Open Scope N_scope.

(** * Absolute names *)

Lemma h_create_group_made h name fmt s s' h' : fs_ok s -> h_create_group h name fmt s = (s', Ok h') ->
  let p := join_name (h_path h) name in
  h' = Handle p (h_mode h) /\
  exists z, is_zarr_group s (h_path h) = Ok z /\ s p = None /\ group_made s s' p z fmt.
Proof.
  intros F H p. unfold h_create_group, fbind at 1, freading in H. fold p in H.
  destruct (is_zarr_group s (h_path h)) as [z| |] eqn:Z; [|discriminate H|discriminate H].
  unfold fbind in H.
  destruct (node_create _ s) as [s1 [[]| |]] eqn:C; [|discriminate H|discriminate H].
  apply node_create_inv in C; [|assumption]. cbn [h_path h_mode] in C. destruct C as [M [A S1]].
  assert (D : s1 p = Some NDir) by (now rewrite S1, below_refl).
  assert (N : forall a, s1 (p ++ [a]) = None).
  { intros a. rewrite S1, below_doc. apply (fs_ok_absent F A). apply below_app. }
  rewrite (@group_metadata_new s1 p z fmt D N) in H.
  assert (NB : forall a r, below (p ++ a :: r) p = false).
  { intros a r. apply below_antisym'; [apply below_app|]. intros E.
    assert (X : p ++ [] = p ++ a :: r) by now rewrite app_nil_r. apply app_inv_head in X. discriminate. }
  destruct z; inversion H; subst s'; clear H; (split; [reflexivity|]).
  - exists true. split; [reflexivity|]. split; [exact A|]. split.
    + intros q B. rewrite path_eqb_ne; [now rewrite S1, B|]. intros ->. now rewrite NB in B.
    + intros _. now rewrite path_eqb_refl.
    + intros a r X. rewrite path_eqb_ne; [|apply app_cons_ne; tauto].
      rewrite S1, NB. apply (fs_ok_absent F A). apply below_app.
    + intros q B1 B2. rewrite path_eqb_ne; [now rewrite S1, B1|]. intros ->. now rewrite below_app in B2.
  - exists false. split; [reflexivity|]. split; [exact A|]. split.
    + intros q B. now rewrite S1, B.
    + discriminate.
    + intros a r X. rewrite S1, NB. apply (fs_ok_absent F A). apply below_app.
    + intros q B1 B2. now rewrite S1, B1.
Qed.

Lemma below_both p : forall q r, below p r = true -> below q r = true -> below p q = true \/ below q p = true.
Proof.
  induction p as [|a p IH]; intros [|b q] [|c r] A B; cbn in *; try (now left); try (now right); try discriminate.
  apply andb_true_iff in A. destruct A as [A1 A2]. apply andb_true_iff in B. destruct B as [B1 B2].
  apply String.eqb_eq in A1. apply String.eqb_eq in B1. subst. rewrite String.eqb_refl. now apply (IH q r).
Qed.

Lemma outside_made s s' g key z fmt : fs_ok s -> is_zarr_group s (h_path (pg_handle g)) = Ok z -> s key = None ->
  below (h_path (pg_handle g)) key = false -> group_made s s' key z fmt ->
  forall q, below (h_path (pg_handle g)) q = true -> s' q = s q.
Proof.
  intros F Z A NB M q B. apply (gm_frame M).
  - destruct (below q key) eqn:X; [|reflexivity]. now rewrite (below_trans B X) in NB.
  - destruct (below key q) eqn:X; [|reflexivity]. exfalso. destruct (@below_both _ _ _ B X) as [Y|Y]; [congruence|].
    apply (zarr_root_exists Z). apply (fs_ok_absent F A Y).
Qed.

Lemma h_create_group_absolute g n key fmt s s' h : key <> [] -> Forall proper key -> fs_ok s ->
  below (h_path (pg_handle g)) key = false ->
  py_contains s g (slashes (S n) ++ name_of key) = false ->
  h_create_group (pg_handle g) (slashes (S n) ++ name_of key) fmt s = (s', Ok h) ->
  escaped s s' g (slashes (S n) ++ name_of key) key (PyGroup h (sub_name g (slashes (S n) ++ name_of key)) (pg_sep g) (pg_format g)).
Proof.
  intros N P F NB C R. destruct (h_create_group_made F R) as [-> [z [Z [A M]]]].
  rewrite join_absolute in * by assumption. unfold escaped. cbn [pg_handle h_path].
  assert (Q := outside_made F Z A NB M).
  split; [reflexivity|]. split; [exact A|]. split; [apply (gm_dirs M), below_refl|]. split; [exact Q|].
  rewrite contains_slashes in *. rewrite contains_plain in * by assumption.
  unfold fs_isdir in *. now rewrite Q by apply below_app.
Qed.

Theorem create_group_absolute g n key s s' g' : key <> [] -> Forall proper key -> fs_ok s ->
  below (h_path (pg_handle g)) key = false ->
  py_create_group g (slashes (S n) ++ name_of key) s = (s', Ok g') ->
  escaped s s' g (slashes (S n) ++ name_of key) key g'.
Proof.
  intros N P F NB R. unfold py_create_group in R.
  destruct (can_write (h_mode (pg_handle g))); cbn [negb] in R; [|discriminate R].
  destruct (py_contains s g (slashes (S n) ++ name_of key)) eqn:C; [discriminate R|].
  unfold fbind in R. destruct h_create_group as [s1 [h| |]] eqn:E; try discriminate R. inversion R; subst.
  now apply (@h_create_group_absolute g n key (pg_format g)).
Qed.
Theorem require_group_absolute g n key s s' g' : key <> [] -> Forall proper key -> fs_ok s ->
  below (h_path (pg_handle g)) key = false -> py_contains s g (name_of key) = false ->
  py_require_group g (slashes (S n) ++ name_of key) s = (s', Ok g') ->
  escaped s s' g (slashes (S n) ++ name_of key) key g'.
Proof.
  intros N P F NB C R. unfold py_require_group in R. rewrite contains_slashes, C in R.
  destruct (can_write (h_mode (pg_handle g))); cbn [negb] in R; [|discriminate R].
  unfold fbind in R. destruct h_create_group as [s1 [h| |]] eqn:E; try discriminate R. inversion R; subst.
  apply (@h_create_group_absolute g n key (pg_format g)); try assumption. now rewrite contains_slashes.
Qed.

(** * Attribute names *)

Lemma keys_are_names s a l k : py_attr_keys s a = Ok l -> (In k l <-> py_attr_in s a k = Ok true).
Proof.
  unfold py_attr_keys, py_attr_in. destruct py_attrs as [o| |]; cbn [bind]; try discriminate. intros E. inversion E; subst.
  destruct (jlookup k o) as [v|] eqn:L.
  - split; [reflexivity|]. intros _. destruct (in_dec String.string_dec k (map fst o)) as [I|I]; [exact I|].
    apply jlookup_none_in in I. congruence.
  - apply jlookup_none_in in L. split; [contradiction|discriminate].
Qed.

(** * Unpickling new objects *)

Lemma deep_name_last f x : forall n, deep_name n (f ++ [x]) = (deep_name n f ++ "/" ++ x)%string.
Proof. induction f as [|b f IH]; intros n; [reflexivity|]. cbn [deep_name List.app]. apply IH. Qed.

Theorem unpickle_created g key a s s' d z : pg_name g = ""%string -> key <> [] -> Forall usable key ->
  fs_ok s -> s (h_path (pg_handle g)) = Some NDir -> uniform s (h_path (pg_handle g)) z key ->
  dbl_ok (a_fill a) ->
  py_create_dataset g (name_of key) a s = (s', Ok d) ->
  recordable_codec z (dataset_format (format_of z (pg_format g))) (op_codec (pd_impl d)) ->
  recordable_fill z (op_dtype (pd_impl d)) (op_fill (pd_impl d)) ->
  py_unpickle_file s' g = Ok g ->
  exists d', py_unpickle s' g (PDataset d) = Ok (PDataset d') /\ same_object (pd_impl d) (pd_impl d') /\ pd_name d' = pd_name d.
Proof.
  intros NF N U F D UN DF R RC RF UP. assert (P := usable_proper U).
  assert (M := @create_dataset_made g key a s s' d z N U F D UN DF R RC RF).
  destruct (md_item M) as [d' [I S]]. destruct UN as [Z UN].
  assert (Z' : is_zarr_group s' (h_path (pg_handle g)) = Ok z).
  { rewrite <- Z, <- (@md_format _ _ _ _ _ M [] key eq_refl N). now rewrite app_nil_r. }
  assert (NM : pd_name d = ("/" ++ name_of key)%string).
  { destruct (@create_dataset_inner g key a s s' d z N U F D (conj Z UN) R) as [_ [_ [_ [_ [_ [_ [_ [_ [_ [_ E]]]]]]]]]].
    rewrite E, NF. destruct (exists_last N) as [f [x ->]]. rewrite removelast_last, last_last.
    assert (Y := @deep_name_eq (f ++ [x]) ""%string N). etransitivity; [|exact Y]. symmetry. apply deep_name_last. }
  exists d'.
  assert (NM' : pd_name d' = pd_name d).
  { assert (I' := I). rewrite (getitem_plain s' g N P) in I'. destruct fs_isdir; [|discriminate I'].
    destruct is_sub_group as [[|]| |]; cbn [bind] in I'; try discriminate I'.
    destruct open_dataset; cbn [bind] in I'; try discriminate I'.
    inversion I'; cbn [pd_name]. unfold sub_name. now rewrite NF, NM. }
  split; [|now split].
  assert (X := @unpickle_found s' g key (PDataset d') z NF UP N P Z').
  unfold py_unpickle in *. cbn [obj_name] in *. rewrite NM' in X. apply X; [|exact I].
  intros k1 k2 E N1 N2. split.
  - rewrite (@md_format _ _ _ _ _ M k1 k2 E N2). exact Z.
  - destruct (@md_groups _ _ _ _ _ M k1 k2 E N1 N2) as [g' [G _]]. now exists g'.
Qed.
