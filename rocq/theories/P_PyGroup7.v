(** Proofs about the python containers: require_dataset. *)
From Coq Require Import ZArith Ascii String.
From Verif Require Import M_Base P_Base M_Double M_Json M_Mode M_Key S_Text P_Key M_Blocking M_Metadata S_Metadata P_Metadata
  M_Fs M_Attributes S_Attributes P_Attributes M_Container S_Container P_Container P_Container2 P_Container3
  M_PyGroup S_PyGroup P_PyGroup P_PyGroup2 P_PyGroup3 P_PyGroup4 P_PyGroup5.
Import ListNotations.
Local Open Scope list_scope.
Local Open Scope N_scope.

(** The dataset fits the arguments. *)
Definition fits (sh : shape) (a : ds_args) (o : opened) : bool :=
  shape_eqb sh (op_shape o) &&
  match a_chunks a with None => true | Some c => shape_eqb c (op_chunks o) end &&
  match a_dtype a with None => true | Some t => String.eqb t (dtype_name_of (op_dtype o)) end.

Section Require.
  Variables (g : pygroup) (key : path) (sh : shape) (a : ds_args).
  Hypothesis N : key <> [].
  Hypothesis P : Forall proper key.
  Let p := h_path (pg_handle g).
  Let name := name_of key.

  Lemma require_cases s : py_require_dataset g name sh a s =
    if fs_isdir s (p ++ key) then
      (s, let! x := py_getitem s g name in
          match x with
          | PGroup _ => Throw ELogic
          | PDataset d => if fits sh a (pd_impl d) then Ok d else Throw ELogic
          end)
    else if can_write (h_mode (pg_handle g)) then py_create_in g name (with_shape sh a) s
    else (s, Throw EInvalidArgument).
  Proof using N P.
    unfold py_require_dataset, name. rewrite (has_plain N P). unfold group_in. fold p.
    destruct (fs_isdir s (p ++ key)) eqn:E.
    - unfold freading. rewrite (getitem_plain s g N P). fold p. rewrite E, (is_sub_group_plain N P).
      fold p. destruct is_sub_group as [[|]| |]; cbn [bind]; try reflexivity.
      unfold py_open_dataset. rewrite (open_plain N P). destruct open_dataset; cbn [bind]; try reflexivity.
      unfold fits. cbn [pd_impl]. destruct shape_eqb; [|reflexivity]. cbn [negb andb].
      destruct (match a_chunks a with None => true | Some c => _ end); [|reflexivity]. cbn [negb andb].
      destruct (match a_dtype a with None => true | Some t => _ end); reflexivity.
    - destruct can_write; reflexivity.
  Qed.

  (** An existing node is never changed. *)
  Theorem require_existing s : fs_isdir s (p ++ key) = true -> fst (py_require_dataset g name sh a s) = s.
  Proof using N P. intros E. rewrite require_cases, E. reflexivity. Qed.

  Lemma fits_spec o : fits sh a o = true <->
    op_shape o = sh /\ (forall c, a_chunks a = Some c -> op_chunks o = c) /\
    (forall t, a_dtype a = Some t -> dtype_name_of (op_dtype o) = t).
  Proof.
    unfold fits. rewrite !andb_true_iff, shape_eqb_spec. split.
    - intros [[A B] C]. repeat split; [now subst| |].
      + intros c E. rewrite E in B. apply shape_eqb_spec in B. now subst.
      + intros t E. rewrite E in C. apply String.eqb_eq in C. now subst.
    - intros [A [B C]]. repeat split; [now subst| |].
      + destruct (a_chunks a) as [c|]; [|reflexivity]. apply shape_eqb_spec. now rewrite (B c).
      + destruct (a_dtype a) as [t|]; [|reflexivity]. apply String.eqb_eq. now rewrite (C t).
  Qed.

  (** It is returned exactly when it is a dataset of this shape, chunks and type. *)
  Theorem require_returns s d : fs_isdir s (p ++ key) = true ->
    (py_require_dataset g name sh a s = (s, Ok d) <->
     py_getitem s g name = Ok (PDataset d) /\ op_shape (pd_impl d) = sh /\
     (forall c, a_chunks a = Some c -> op_chunks (pd_impl d) = c) /\
     (forall t, a_dtype a = Some t -> dtype_name_of (op_dtype (pd_impl d)) = t)).
  Proof using N P.
    intros E. rewrite require_cases, E. split.
    - intros R. destruct py_getitem as [[|d']| |]; cbn [bind] in R; try discriminate R.
      destruct (fits sh a (pd_impl d')) eqn:F; [|discriminate R]. inversion R; subst d'.
      split; [reflexivity|]. now apply fits_spec.
    - intros [I F]. apply fits_spec in F. rewrite I. cbn [bind]. now rewrite F.
  Qed.

  (** A new one is what create_dataset makes. *)
  Lemma require_new s : fs_isdir s (p ++ key) = false -> can_write (h_mode (pg_handle g)) = true ->
    py_require_dataset g name sh a s = py_create_in g name (with_shape sh a) s.
  Proof using N P. intros E C. now rewrite require_cases, E, C. Qed.
End Require.

Lemma same_object_refl o : same_object o o.
Proof. split; try reflexivity. destruct (op_codec o); repeat split; now left. Qed.

Lemma asked_dtype_name t d : asked_dtype t d -> dtype_name_of d = t.
Proof. destruct d; cbn; intros H; first [contradiction|now subst]. Qed.

Lemma create_in_fits g key sh a s s' d : key <> [] -> Forall proper key -> fs_ok s ->
  py_create_in g (name_of key) (with_shape sh a) s = (s', Ok d) ->
  op_shape (pd_impl d) = sh /\ (forall c, a_chunks a = Some c -> lenN c = lenN sh /\ op_chunks (pd_impl d) = map2 N.min c sh) /\
  (forall t, a_dtype a = Some t -> dtype_name_of (op_dtype (pd_impl d)) = t).
Proof.
  intros N P F R. destruct (create_in_inv N P R) as [sh' [ty [ch [z [comp [copts [op [delim [enc [shard Q]]]]]]]]]].
  assert (A := created_as_asked F (mi_zarr Q) (mi_create Q)).
  destruct (proj1 (shape_and_dtype_spec _ _ _) (mi_type Q)) as [[S1|S1] [S2 _]]; cbn in S1, S2; [discriminate S1|].
  inversion S1; subst sh'. repeat split.
  - apply A.
  - assert (CH := chunks_for_spec (mi_chunks Q)). cbn in CH. rewrite H in CH. apply CH.
  - assert (CH := chunks_for_spec (mi_chunks Q)). cbn in CH. rewrite H in CH. rewrite (aa_chunks A). apply CH.
  - intros t E. destruct S2 as [S2|S2]; [congruence|]. rewrite E in S2. inversion S2; subst. apply asked_dtype_name. apply A.
Qed.

(** A second call returns the dataset that the first one made or found. *)
Theorem require_twice g key sh a s s' d z : key <> [] -> Forall usable key ->
  fs_ok s -> s (h_path (pg_handle g)) = Some NDir -> is_zarr_group s (h_path (pg_handle g)) = Ok z ->
  dbl_ok (a_fill a) -> (forall c, a_chunks a = Some c -> Forall2 N.le c sh) ->
  py_require_dataset g (name_of key) sh a s = (s', Ok d) ->
  recordable_codec z (dataset_format (format_of z (pg_format g))) (op_codec (pd_impl d)) ->
  recordable_fill z (op_dtype (pd_impl d)) (op_fill (pd_impl d)) ->
  exists d', py_require_dataset g (name_of key) sh a s' = (s', Ok d') /\ same_object (pd_impl d) (pd_impl d').
Proof.
  intros N U F D Z DF CS R RC RF. assert (P := usable_proper U).
  destruct (fs_isdir s (h_path (pg_handle g) ++ key)) eqn:E.
  - assert (X := @require_existing g key sh a N P s E). rewrite R in X. cbn in X. subst s'.
    exists d. split; [exact R|apply same_object_refl].
  - assert (R' := R). rewrite (@require_cases g key sh a N P), E in R'.
    destruct (can_write (h_mode (pg_handle g))); [|discriminate R'].
    assert (FO := @create_in_found g key (with_shape sh a) s s' d z N U F D Z DF R' RC RF).
    destruct (fo_item FO) as [d' [I S]]. exists d'. split; [|exact S].
    assert (E' : fs_isdir s' (h_path (pg_handle g) ++ key) = true).
    { assert (I' := I). rewrite (getitem_plain s' g N P) in I'. destruct (fs_isdir s' (h_path (pg_handle g) ++ key)); [reflexivity|discriminate I']. }
    apply (@require_returns g key sh a N P s' d' E'). split; [exact I|].
    destruct (create_in_fits N P F R') as [A [B C]].
    split; [now rewrite (so_shape S)|]. split.
    + intros c Ec. rewrite (so_chunks S). destruct (B c Ec) as [_ ->]. apply map2_min_id. now apply CS.
    + intros t Et. rewrite (so_dtype S). now apply C.
Qed.

(** If some chunk is larger than the shape, it never does. *)
Theorem require_twice_fails g key sh a s s' d z c : key <> [] -> Forall usable key ->
  fs_ok s -> s (h_path (pg_handle g)) = Some NDir -> is_zarr_group s (h_path (pg_handle g)) = Ok z ->
  dbl_ok (a_fill a) -> a_chunks a = Some c -> ~ Forall2 N.le c sh ->
  fs_isdir s (h_path (pg_handle g) ++ key) = false ->
  py_require_dataset g (name_of key) sh a s = (s', Ok d) ->
  recordable_codec z (dataset_format (format_of z (pg_format g))) (op_codec (pd_impl d)) ->
  recordable_fill z (op_dtype (pd_impl d)) (op_fill (pd_impl d)) ->
  py_require_dataset g (name_of key) sh a s' = (s', Throw ELogic).
Proof.
  intros N U F D Z DF AC CS E R RC RF. assert (P := usable_proper U).
  rewrite (@require_cases g key sh a N P), E in R. destruct (can_write (h_mode (pg_handle g))); [|discriminate R].
  assert (FO := @create_in_found g key (with_shape sh a) s s' d z N U F D Z DF R RC RF).
  destruct (fo_item FO) as [d' [I S]].
  assert (E' : fs_isdir s' (h_path (pg_handle g) ++ key) = true).
  { assert (I' := I). rewrite (getitem_plain s' g N P) in I'. destruct (fs_isdir s' (h_path (pg_handle g) ++ key)); [reflexivity|discriminate I']. }
  rewrite (@require_cases g key sh a N P), E', I. cbn [bind].
  destruct (fits sh a (pd_impl d')) eqn:FI; [|reflexivity]. exfalso. apply CS.
  apply fits_spec in FI. destruct FI as [_ [FI _]]. specialize (FI c AC). rewrite (so_chunks S) in FI.
  destruct (create_in_fits N P F R) as [_ [B _]]. destruct (B c AC) as [L B2].
  rewrite <- FI, B2. now apply map2_min_le.
Qed.
