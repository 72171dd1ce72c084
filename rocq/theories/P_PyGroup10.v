(** Proofs about the python containers: pickling. *)
From Coq Require Import ZArith Ascii String.
From Verif Require Import M_Base P_Base M_Double M_Json M_Mode M_Key S_Text P_Key M_Blocking M_Metadata S_Metadata P_Metadata
  M_Fs M_Attributes S_Attributes P_Attributes M_Container S_Container P_Container P_Container2 P_Container3
  M_PyGroup S_PyGroup P_PyGroup P_PyGroup2 P_PyGroup3 P_PyGroup5 P_PyGroup7 P_PyGroup8.
Import ListNotations.
Local Open Scope list_scope.
Local Open Scope N_scope.

(** * Names of objects *)

Lemma getitem_name s g a x : proper a -> py_getitem s g a = Ok x -> obj_name x = (pg_name g ++ "/" ++ a)%string.
Proof.
  intros P I. assert (PK : Forall proper [a]) by now constructor. change (py_getitem s g (name_of [a]) = Ok x) in I.
  rewrite (@getitem_plain s g [a] ltac:(discriminate) PK) in I. destruct fs_isdir; [|discriminate I].
  destruct is_sub_group as [[|]| |]; cbn [bind] in I; try discriminate I; [now inversion I|].
  destruct open_dataset as [o| |]; cbn [bind] in I; try discriminate I. now inversion I.
Qed.

Lemma member_name s g k x : member s g k x -> obj_name x = deep_name (pg_name g) k.
Proof.
  induction 1 as [g a x P I|g a g' k x P I M IH]; [now apply (getitem_name P I)|].
  rewrite IH. cbn [deep_name]. assert (E := getitem_name P I). cbn [obj_name] in E. now rewrite E.
Qed.

Lemma append_assoc a b c : ((a ++ b) ++ c)%string = (a ++ b ++ c)%string.
Proof. induction a as [|x a IH]; [reflexivity|]. cbn. now rewrite IH. Qed.
Lemma append_nil a : (a ++ "")%string = a.
Proof. induction a as [|x a IH]; [reflexivity|]. cbn. now rewrite IH. Qed.

Lemma deep_name_eq k : forall n, k <> [] -> deep_name n k = (n ++ "/" ++ name_of k)%string.
Proof.
  induction k as [|a k IH]; intros n N; [congruence|]. cbn [deep_name]. destruct k as [|b r]; [reflexivity|].
  rewrite IH by discriminate. rewrite name_of_cons. rewrite !append_assoc. reflexivity.
Qed.

Lemma rstrip_last s : forall c, c <> "/"%char -> rstrip (s ++ String c "") = (s ++ String c "")%string.
Proof.
  induction s as [|x s IH]; intros c N; cbn [String.append rstrip].
  - destruct (Ascii.eqb_spec c "/"%char); [congruence|reflexivity].
  - rewrite (IH c N). now destruct (s ++ String c "")%string eqn:E; [destruct s; discriminate E|].
Qed.

Lemma string_last s : s <> ""%string -> exists s' c, s = (s' ++ String c "")%string.
Proof.
  induction s as [|x s IH]; intros N; [congruence|]. destruct s as [|y s].
  - exists ""%string, x. reflexivity.
  - destruct IH as [s' [c E]]; [discriminate|]. exists (String x s'), c. cbn. now rewrite E.
Qed.

Lemma slash_free_app a b : slash_free (a ++ b) = slash_free a && slash_free b.
Proof. induction a as [|x a IH]; [reflexivity|]. cbn. rewrite IH. now rewrite andb_assoc. Qed.

Lemma name_last k : k <> [] -> Forall proper k -> exists s c, name_of k = (s ++ String c "")%string /\ c <> "/"%char.
Proof.
  intros N P. destruct (exists_last N) as [f [x ->]]. apply Forall_app in P. destruct P as [Pf Px].
  inversion Px as [|? ? P1 _]; subst. destruct P1 as [NE [_ [_ SF]]].
  destruct (string_last NE) as [s [c E]].
  assert (C : c <> "/"%char).
  { rewrite E, slash_free_app in SF. apply andb_true_iff in SF. destruct SF as [_ SF]. cbn in SF.
    intros ->. discriminate SF. }
  clear N Pf Px NE SF. induction f as [|a f IH].
  - exists s, c. cbn. now split.
  - destruct IH as [s' [c' [E' C']]]. cbn [List.app]. exists (a ++ "/" ++ s')%string, c'. split; [|exact C'].
    assert (X : exists b r, f ++ [x] = b :: r) by (destruct f; cbn; eauto). destruct X as [b [r X]].
    rewrite X in *. rewrite name_of_cons, E'. rewrite !append_assoc. reflexivity.
Qed.

Lemma strip_name k : k <> [] -> Forall proper k -> rstrip (lstrip ("/" ++ name_of k)) = name_of k.
Proof.
  intros N P. change ("/" ++ name_of k)%string with (slashes 1 ++ name_of k)%string. rewrite lstrip_slashes, lstrip_plain by assumption.
  destruct (name_last N P) as [s [c [E C]]]. rewrite E. now apply rstrip_last.
Qed.

Lemma navigate_name s f k : k <> [] -> Forall proper k ->
  py_navigate s f ("/" ++ name_of k) = navigate_parts s (PGroup f) k.
Proof.
  intros N P. unfold py_navigate. rewrite strip_name by assumption.
  destruct (name_of k) as [|c r] eqn:E.
  - destruct (name_last N P) as [s' [c [E2 _]]]. rewrite E in E2. destruct s'; discriminate E2.
  - rewrite <- E, split_name by assumption. reflexivity.
Qed.

Lemma navigate_member s g k x : member s g k x -> navigate_parts s (PGroup g) k = Ok x.
Proof.
  induction 1 as [g a x P I|g a g' k x P I M IH]; cbn [navigate_parts]; rewrite I; [reflexivity|exact IH].
Qed.

(** * Unpickling *)

Theorem unpickle_member s f k x : pg_name f = ""%string -> py_unpickle_file s f = Ok f -> member s f k x ->
  py_unpickle s f x = Ok x.
Proof.
  intros NF U M. unfold py_unpickle. rewrite U. cbn [bind]. destruct (member_proper M) as [P N].
  rewrite (member_name M), NF, deep_name_eq by assumption.
  change ("" ++ "/" ++ name_of k)%string with ("/" ++ name_of k)%string.
  rewrite (navigate_name s f N P). now apply navigate_member.
Qed.

(** Objects that were looked up through several levels at once. *)
Lemma navigate_group s : forall k g z, k <> [] -> Forall proper k ->
  is_zarr_group s (h_path (pg_handle g)) = Ok z ->
  (forall k1 k2, k = k1 ++ k2 -> k1 <> [] -> k2 <> [] ->
     s (h_path (pg_handle g) ++ k1) = Some NDir /\ is_zarr_group s (h_path (pg_handle g) ++ k1) = Ok z /\
     is_sub_group s (h_path (pg_handle g)) k1 = Ok true) ->
  match py_getitem s g (name_of k), navigate_parts s (PGroup g) k with
  | Ok x, Ok y => same_obj x y /\ obj_name y = deep_name (pg_name g) k
  | Throw e, Throw e' => e = e'
  | UB, UB => True
  | _, _ => False
  end.
Proof.
  induction k as [|a k IH]; intros g z N P Z H; [congruence|]. inversion P as [|? ? Pa Pk]; subst.
  assert (Pa1 : Forall proper [a]) by now constructor.
  destruct k as [|b r].
  - cbn [navigate_parts]. change (name_of [a]) with a. destruct (py_getitem s g a) as [x| |] eqn:E; try reflexivity. cbn [bind].
    split; [destruct x; repeat split|]. now apply (getitem_name Pa E).
  - set (k := b :: r) in *. assert (NK : k <> []) by discriminate.
    destruct (H [a] k eq_refl ltac:(discriminate) NK) as [D1 [Z1 G1]].
    assert (GA : py_getitem s g a = Ok (PGroup (PyGroup (Handle (h_path (pg_handle g) ++ [a]) (h_mode (pg_handle g)))
                            (sub_name g a) (pg_sep g) (pg_format g)))).
    { change (py_getitem s g a) with (py_getitem s g (name_of [a])).
      rewrite (@getitem_plain s g [a] ltac:(discriminate) Pa1), (isdir_some D1), G1. reflexivity. }
    set (g1 := PyGroup _ _ _ _) in GA. cbn [navigate_parts]. rewrite GA. cbn [bind].
    assert (I := IH g1 z NK Pk Z1). cbn [g1 pg_handle h_path pg_name] in I.
    assert (H1 : forall k1 k2, k = k1 ++ k2 -> k1 <> [] -> k2 <> [] ->
      s ((h_path (pg_handle g) ++ [a]) ++ k1) = Some NDir /\ is_zarr_group s ((h_path (pg_handle g) ++ [a]) ++ k1) = Ok z /\
      is_sub_group s (h_path (pg_handle g) ++ [a]) k1 = Ok true).
    { intros k1 k2 E N1 N2. rewrite <- !app_assoc. cbn [List.app].
      destruct (H (a :: k1) k2) as [A [B C]]; [now rewrite E|discriminate|exact N2|].
      split; [exact A|]. split; [exact B|]. now rewrite <- (@sub_group_shift s (h_path (pg_handle g)) a k1 z Z Z1). }
    specialize (I H1). fold g1 in I.
    assert (EQ : match py_getitem s g (name_of (a :: k)), py_getitem s g1 (name_of k) with
                 | Ok x, Ok y => same_obj x y /\ (match x, y with PDataset _, PDataset _ | PGroup _, PGroup _ => True | _, _ => False end)
                 | Throw e, Throw e' => e = e'
                 | UB, UB => True
                 | _, _ => False
                 end).
    { assert (E1 := @getitem_plain s g (a :: k) ltac:(discriminate) P). assert (E2 := getitem_plain s g1 NK Pk).
      rewrite (@sub_group_shift s (h_path (pg_handle g)) a k z Z Z1), (@open_shift s (pg_handle g) a k z Z Z1) in E1.
      change (pg_handle g1) with (Handle (h_path (pg_handle g) ++ [a]) (h_mode (pg_handle g))) in E2. cbn [h_path h_mode] in E2.
      rewrite <- app_assoc in E2. cbn [List.app] in E2. rewrite E1, E2.
      destruct (fs_isdir s (h_path (pg_handle g) ++ a :: k)); [|reflexivity].
      destruct (is_sub_group s (h_path (pg_handle g) ++ [a]) k) as [[|]| |]; cbn [bind]; [repeat split| |reflexivity|exact Logic.I].
      destruct (open_dataset s (Handle (h_path (pg_handle g) ++ [a]) (h_mode (pg_handle g))) k); cbn [bind];
        [split; reflexivity|reflexivity|exact Logic.I]. }
    destruct (py_getitem s g (name_of (a :: k))) as [x| |], (py_getitem s g1 (name_of k)) as [y| |]; try contradiction.
    + destruct EQ as [S K]. destruct navigate_parts as [w| |]; try contradiction. destruct I as [S2 NM]. split.
      * destruct x, y, w; cbn in *; try contradiction; intuition congruence.
      * exact NM.
    + subst. destruct navigate_parts; try contradiction. exact I.
    + destruct navigate_parts; try contradiction. exact I.
Qed.

(** The file itself. *)
Lemma dbl_eq_int_inj d : dbl_eq_int d 2 = true -> dbl_eq_int d 3 = false.
Proof.
  unfold dbl_eq_int. destruct d as [| | |s m e]; try discriminate. intros A. apply andb_true_iff in A. destruct A as [A B].
  rewrite A. cbn [andb]. apply Z.eqb_eq in B. rewrite <- B. reflexivity.
Qed.
Lemma unpickle_file s f fmt z : pg_name f = ""%string ->
  check_version s (h_path (pg_handle f)) fmt = Ok (pg_format f) ->
  is_zarr_group s (h_path (pg_handle f)) = Ok z -> z = true \/ pg_format f = 2%Z ->
  py_unpickle_file s f = Ok f.
Proof.
  intros NF C Z H. unfold py_unpickle_file, check_version in *. rewrite Z in *. cbn [bind] in *.
  assert (E : forall v, v = pg_format f -> PyGroup (pg_handle f) "" (pg_sep f) v = f).
  { intros v ->. rewrite <- NF. now destruct f. }
  f_equal. apply E. destruct z; [|destruct H; congruence].
  destruct read_group_metadata as [md| |]; cbn [bind] in C; try discriminate C.
  destruct (jfind "zarr_format" md) as [v|]; [|discriminate C].
  destruct (jeq_int v 2) eqn:E2.
  - inversion C as [C']. destruct v; cbn [jeq_int] in *; try discriminate E2.
    + apply Z.eqb_eq in E2. now subst.
    + apply Z.eqb_eq in E2. now rewrite E2.
    + rewrite (dbl_eq_int_inj E2). reflexivity.
  - destruct (jeq_int v 3) eqn:E3; [|discriminate C]. now inversion C.
Qed.

(** Objects found with a name of several components. *)
Theorem unpickle_found s f k x z : pg_name f = ""%string -> py_unpickle_file s f = Ok f ->
  k <> [] -> Forall proper k -> is_zarr_group s (h_path (pg_handle f)) = Ok z ->
  (forall k1 k2, k = k1 ++ k2 -> k1 <> [] -> k2 <> [] ->
     is_zarr_group s (h_path (pg_handle f) ++ k1) = Ok z /\
     exists g, py_getitem s f (name_of k1) = Ok (PGroup g)) ->
  py_getitem s f (name_of k) = Ok x -> py_unpickle s f x = Ok x.
Proof.
  intros NF U N P Z H I.
  assert (NM : obj_name x = ("/" ++ name_of k)%string).
  { assert (I' := I). rewrite (getitem_plain s f N P) in I'. destruct fs_isdir; [|discriminate I'].
    destruct is_sub_group as [[|]| |]; cbn [bind] in I'; try discriminate I';
      [|destruct open_dataset; cbn [bind] in I'; try discriminate I'];
      inversion I'; cbn [obj_name pg_name pd_name]; unfold sub_name; now rewrite NF. }
  unfold py_unpickle. rewrite U. cbn [bind]. rewrite NM, (navigate_name s f N P).
  assert (H' : forall k1 k2, k = k1 ++ k2 -> k1 <> [] -> k2 <> [] ->
     s (h_path (pg_handle f) ++ k1) = Some NDir /\ is_zarr_group s (h_path (pg_handle f) ++ k1) = Ok z /\
     is_sub_group s (h_path (pg_handle f)) k1 = Ok true).
  { intros k1 k2 E N1 N2. destruct (H k1 k2 E N1 N2) as [A [g B]].
    assert (P1 : Forall proper k1) by (rewrite E in P; apply Forall_app in P; apply P).
    rewrite (getitem_plain s f N1 P1) in B. destruct fs_isdir eqn:D; [|discriminate B].
    destruct is_sub_group as [[|]| |]; cbn [bind] in B; try discriminate B.
    - split; [|now split]. unfold fs_isdir in D. destruct (s (h_path (pg_handle f) ++ k1)) as [[]|]; try discriminate D; reflexivity.
    - destruct open_dataset; cbn [bind] in B; discriminate B. }
  assert (G := @navigate_group s k f z N P Z H'). rewrite I in G.
  destruct navigate_parts as [y| |] eqn:Y; try contradiction. destruct G as [S NY]. f_equal.
  assert (NY' : obj_name y = obj_name x).
  { rewrite NY, NF, deep_name_eq, NM by assumption. reflexivity. }
  destruct x as [[]|[]], y as [[]|[]]; cbn in *; try contradiction; intuition congruence.
Qed.

(** * Names with slashes around them *)

Lemma rstrip_slashes m s : rstrip (s ++ slashes m) = rstrip s.
Proof.
  assert (Z : forall m, rstrip (slashes m) = ""%string).
  { clear. induction m as [|m IH]; [reflexivity|]. cbn [slashes rstrip]. now rewrite IH. }
  induction s as [|c s IH]; cbn [String.append rstrip]; [apply Z|now rewrite IH].
Qed.

Lemma split_snoc s : forall acc, split_slash (s ++ "/") acc = split_slash s acc ++ [""%string].
Proof.
  induction s as [|c s IH]; intros acc; [reflexivity|]. cbn [String.append split_slash].
  destruct (Ascii.eqb c "/"%char); [now rewrite IH|apply IH].
Qed.

Lemma slashes_snoc m : slashes (S m) = (slashes m ++ "/")%string.
Proof. induction m as [|m IH]; [reflexivity|]. cbn [slashes String.append] in *. now rewrite <- IH. Qed.

Lemma app_assoc_s (a b c : string) : ((a ++ b) ++ c = a ++ (b ++ c))%string.
Proof. induction a as [|x a IH]; [reflexivity|]. cbn. now rewrite IH. Qed.

Lemma app_empty (a : string) : (a ++ "" = a)%string.
Proof. induction a as [|x a IH]; [reflexivity|]. cbn. now rewrite IH. Qed.

Lemma join_trailing base s m : s <> ""%string -> join_name base (s ++ slashes m) = join_name base s.
Proof.
  intros N. induction m as [|m IH]; [now rewrite app_empty|].
  rewrite slashes_snoc, <- app_assoc_s. rewrite <- IH. unfold join_name. rewrite split_snoc, fold_left_app. cbn [fold_left].
  unfold step_name at 1. cbn [String.eqb orb].
  destruct s as [|c s]; [congruence|reflexivity].
Qed.

Lemma lstrip_first a b : a <> ""%string -> lstrip a = a -> lstrip (a ++ b) = (a ++ b)%string.
Proof.
  destruct a as [|c a]; [congruence|]. intros _ E. cbn [String.append lstrip] in *. destruct (Ascii.eqb c "/"%char) eqn:C; [|reflexivity].
  exfalso. assert (L : forall s, (String.length (lstrip s) <= String.length s)%nat).
  { clear. induction s as [|c s IH]; [reflexivity|]. cbn. destruct Ascii.eqb; cbn; lia. }
  specialize (L a). rewrite E in L. cbn in L. lia.
Qed.

Lemma getitem_trailing s g k n m : k <> [] -> Forall proper k ->
  same_result (py_getitem s g (slashes n ++ name_of k ++ slashes m)) (py_getitem s g (name_of k)) /\
  forall x, py_getitem s g (slashes n ++ name_of k ++ slashes m) = Ok x ->
    exists j, obj_name x = (pg_name g ++ "/" ++ slashes j ++ name_of k ++ slashes m)%string.
Proof.
  intros N P. assert (NE : name_of k <> ""%string) by (destruct (name_last N P) as [s' [c [X _]]]; rewrite X; now destruct s').
  assert (E : lstrip (slashes n ++ name_of k ++ slashes m) = (name_of k ++ slashes m)%string).
  { rewrite lstrip_slashes. apply lstrip_first; [exact NE|now apply lstrip_plain]. }
  assert (J : forall b, join_name b (name_of k ++ slashes m)%string = join_name b (name_of k)) by (intros b; now apply join_trailing).
  assert (H : h_is_sub_group s (pg_handle g) (name_of k ++ slashes m)%string = h_is_sub_group s (pg_handle g) (name_of k))
    by (unfold h_is_sub_group; now rewrite J).
  assert (O : h_open_dataset s (pg_handle g) (name_of k ++ slashes m)%string = h_open_dataset s (pg_handle g) (name_of k))
    by (unfold h_open_dataset; now rewrite J).
  unfold py_getitem, py_contains, py_open_dataset, py_subgroup. rewrite E, (lstrip_plain N P), H, O. clear H O. unfold h_has. rewrite J.
  destruct (negb (fs_isdir s (join_name (h_path (pg_handle g)) (name_of k)))); [split; [reflexivity|discriminate]|].
  destruct (h_is_sub_group s (pg_handle g) (name_of k)) as [[|]| |]; cbn [bind]; try (split; [reflexivity|discriminate]).
  - split; [cbn; auto|].
    intros x X. injection X as <-. now exists n.
  - destruct (h_open_dataset s (pg_handle g) (name_of k)); cbn [bind]; try (split; [reflexivity|discriminate]). split; [reflexivity|].
    intros x X. injection X as <-. now exists 0%nat.
Qed.

Theorem unpickle_slashes s f k n m x z : pg_name f = ""%string -> py_unpickle_file s f = Ok f ->
  k <> [] -> Forall proper k -> is_zarr_group s (h_path (pg_handle f)) = Ok z ->
  (forall k1 k2, k = k1 ++ k2 -> k1 <> [] -> k2 <> [] ->
     is_zarr_group s (h_path (pg_handle f) ++ k1) = Ok z /\
     exists g, py_getitem s f (name_of k1) = Ok (PGroup g)) ->
  py_getitem s f (slashes n ++ name_of k ++ slashes m) = Ok x ->
  exists y, py_unpickle s f x = Ok y /\ same_obj x y.
Proof.
  intros NF U N P Z H I. destruct (@getitem_trailing s f k n m N P) as [SR NM]. destruct (NM x I) as [j NX]. rewrite I in SR.
  destruct (py_getitem s f (name_of k)) as [y| |] eqn:Y; try contradiction. exists y. split; [|exact SR].
  rewrite <- (@unpickle_found s f k y z NF U N P Z H Y). unfold py_unpickle. rewrite U. cbn [bind].
  assert (NY : obj_name y = ("/" ++ name_of k)%string).
  { assert (I' := Y). rewrite (getitem_plain s f N P) in I'. destruct fs_isdir; [|discriminate I'].
    destruct is_sub_group as [[|]| |]; cbn [bind] in I'; try discriminate I';
      [|destruct open_dataset; cbn [bind] in I'; try discriminate I'];
      inversion I'; cbn [obj_name pg_name pd_name]; unfold sub_name; now rewrite NF. }
  rewrite NX, NY, NF. unfold py_navigate.
  change ("" ++ "/" ++ slashes j ++ name_of k ++ slashes m)%string with (slashes (S j) ++ (name_of k ++ slashes m))%string.
  rewrite (strip_name N P), lstrip_slashes.
  assert (NE : name_of k <> ""%string) by (destruct (name_last N P) as [s' [c [X _]]]; rewrite X; now destruct s').
  rewrite (lstrip_first _ NE (lstrip_plain N P)), rstrip_slashes.
  assert (R : rstrip (name_of k) = name_of k). { rewrite <- (strip_name N P) at 1. rewrite (strip_name N P).
    destruct (name_last N P) as [s' [c [X C]]]. rewrite X. now apply rstrip_last. }
  now rewrite R.
Qed.
