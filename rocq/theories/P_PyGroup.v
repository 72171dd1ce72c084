(** Proofs about the python containers: names. *)
From Coq Require Import ZArith Ascii String.
From Verif Require Import M_Base P_Base M_Double M_Json M_Mode M_Key S_Text P_Key M_Blocking M_Metadata S_Metadata P_Metadata
  M_Fs M_Attributes S_Attributes P_Attributes M_Container S_Container P_Container P_Container2 P_Container3
  M_PyGroup S_PyGroup.
Import ListNotations.
Local Open Scope list_scope.
Local Open Scope N_scope.

(** * Names *)

Lemma split_cons a b : forall cur, split_slash (a ++ String "/"%char b) cur = split_slash a cur ++ split_slash b ""%string.
Proof.
  induction a as [|c a IH]; intros cur; [reflexivity|]. cbn [String.append split_slash].
  destruct (Ascii.eqb c "/"); [|apply IH]. cbn [List.app]. f_equal. apply IH.
Qed.

Lemma name_of_cons a b r : name_of (a :: b :: r) = (a ++ String "/"%char (name_of (b :: r)))%string.
Proof. reflexivity. Qed.

Lemma split_name key : key <> [] -> Forall proper key -> split_slash (name_of key) "" = key.
Proof.
  induction key as [|a key IH]; [congruence|]. intros _ F. inversion F; subst.
  destruct H1 as (_ & _ & _ & H1).
  destruct key as [|b r]; [unfold name_of; cbn [String.concat]; now rewrite split_noslash|].
  rewrite name_of_cons, split_cons, split_noslash, IH; [reflexivity|discriminate|assumption|assumption].
Qed.

Lemma step_proper p c : proper c -> step_name p c = p ++ [c].
Proof.
  intros (A & B & C & _). unfold step_name.
  destruct (String.eqb_spec c ""); [congruence|]. destruct (String.eqb_spec c "."); [congruence|].
  destruct (String.eqb_spec c ".."); [congruence|]. reflexivity.
Qed.

Lemma steps_proper key : Forall proper key -> forall p, fold_left step_name key p = p ++ key.
Proof.
  induction 1 as [|c key H F IH]; intros p; [cbn; now rewrite app_nil_r|].
  cbn [fold_left]. rewrite step_proper by assumption. rewrite IH, <- app_assoc. reflexivity.
Qed.

Lemma proper_head key : key <> [] -> Forall proper key ->
  exists c r, name_of key = String c r /\ Ascii.eqb c "/" = false.
Proof.
  intros N F. destruct key as [|a key]; [congruence|]. inversion F; subst. destruct H1 as (A & _ & _ & B).
  destruct a as [|c a]; [congruence|]. cbn [slash_free] in B.
  exists c. assert (C : Ascii.eqb c "/" = false) by (destruct (Ascii.eqb c "/"); [discriminate|reflexivity]).
  destruct key as [|b r]; unfold name_of; cbn [String.concat String.append]; eauto.
Qed.

Lemma join_plain base key : key <> [] -> Forall proper key -> join_name base (name_of key) = base ++ key.
Proof.
  intros N F. unfold join_name. rewrite split_name by assumption. rewrite steps_proper by assumption.
  destruct (proper_head N F) as (c & r & -> & E). cbn [is_absolute]. now rewrite E.
Qed.

Lemma lstrip_plain key : key <> [] -> Forall proper key -> lstrip (name_of key) = name_of key.
Proof.
  intros N F. destruct (proper_head N F) as (c & r & -> & E). cbn [lstrip]. now rewrite E.
Qed.

Lemma lstrip_slashes n name : lstrip (slashes n ++ name) = lstrip name.
Proof. induction n; [reflexivity|]. cbn [slashes String.append lstrip]. exact IHn. Qed.

(** An absolute name ignores the group. *)
Lemma join_absolute base key n : key <> [] -> Forall proper key ->
  join_name base (slashes (S n) ++ name_of key)%string = key.
Proof.
  intros N F. unfold join_name. cbn [slashes String.append is_absolute]. cbn.
  assert (X : forall m, fold_left step_name (split_slash (slashes m ++ name_of key) "") [] = key).
  { induction m as [|m IH]; [cbn [slashes String.append]; rewrite split_name by assumption; now rewrite steps_proper|].
    cbn [slashes String.append split_slash]. cbn [Ascii.eqb Bool.eqb fold_left]. exact IH. }
  exact (X n).
Qed.

(** * The bindings on plain names *)

Section Plain.
  Variable key : path.
  Hypothesis N : key <> [].
  Hypothesis P : Forall proper key.

  Lemma has_plain s h : h_has s h (name_of key) = group_in s h key.
  Proof using N P. unfold h_has, group_in. now rewrite join_plain. Qed.

  Lemma is_sub_group_plain s h : h_is_sub_group s h (name_of key) = is_sub_group s (h_path h) key.
  Proof using N P. unfold h_is_sub_group, is_sub_group. rewrite join_plain by assumption. now rewrite !app_assoc. Qed.

  Lemma open_plain s h : h_open_dataset s h (name_of key) = open_dataset s h key.
  Proof using N P. unfold h_open_dataset, open_dataset. now rewrite join_plain. Qed.

  Lemma create_group_plain h fmt s : h_create_group h (name_of key) fmt s =
    let (s', r) := create_group h key fmt s in
    (s', let! _ := r in Ok (Handle (h_path h ++ key) (h_mode h))).
  Proof using N P.
    unfold h_create_group, create_group. rewrite join_plain by assumption. unfold fbind, freading, fret.
    destruct is_zarr_group; try reflexivity. destruct node_create as [s1 [| |]]; try reflexivity.
    destruct write_group_metadata as [s2 [| |]]; reflexivity.
  Qed.

  Lemma create_dataset_plain h dn sh ch cn copts fill delim fmt enc shard s :
    h_create_dataset h (name_of key) dn sh ch cn copts fill delim fmt enc shard s =
    match json_options copts [] with
    | Ok o => create_dataset h key dn sh ch cn o fill delim fmt enc shard s
    | Throw e => (s, Throw e)
    | UB => (s, UB)
    end.
  Proof using N P.
    unfold h_create_dataset, create_dataset. rewrite join_plain by assumption. unfold fbind at 1, fret.
    destruct json_options; reflexivity.
  Qed.

  Lemma contains_plain s g : py_contains s g (name_of key) = fs_isdir s (h_path (pg_handle g) ++ key).
  Proof using N P. unfold py_contains. rewrite lstrip_plain by assumption. apply has_plain. Qed.
End Plain.

(** * Looking up names with leading slashes *)

Lemma contains_slashes s g n name : py_contains s g (slashes n ++ name) = py_contains s g name.
Proof. unfold py_contains. now rewrite lstrip_slashes. Qed.

Lemma getitem_slashes s g n name : same_result (py_getitem s g (slashes n ++ name)) (py_getitem s g name).
Proof.
  unfold py_getitem. rewrite contains_slashes, lstrip_slashes. destruct (negb _); [reflexivity|].
  destruct h_is_sub_group as [[|]| |]; cbn [bind]; try reflexivity.
  - repeat split.
  - destruct py_open_dataset; cbn [bind]; reflexivity.
Qed.

Lemma getitem_dataset_slashes s g n name d :
  py_getitem s g (slashes n ++ name) = Ok (PDataset d) <-> py_getitem s g name = Ok (PDataset d).
Proof.
  unfold py_getitem. rewrite contains_slashes, lstrip_slashes. destruct (negb _); [reflexivity|].
  destruct h_is_sub_group as [[|]| |]; cbn [bind]; try reflexivity. split; intros X; inversion X.
Qed.

Lemma delitem_slashes s g n name : py_delitem g (slashes n ++ name) s = py_delitem g name s.
Proof.
  unfold py_delitem. rewrite contains_slashes, lstrip_slashes. destruct (negb _); [reflexivity|].
  destruct (negb _); [reflexivity|]. unfold fbind at 1 3, freading. destruct h_is_sub_group as [[|]| |] eqn:E; try reflexivity.
  unfold fbind. unfold py_getitem. rewrite contains_slashes, lstrip_slashes. destruct (negb _); [reflexivity|].
  rewrite E. reflexivity.
Qed.
