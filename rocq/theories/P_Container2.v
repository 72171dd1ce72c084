(** Proofs about containers: failing calls, removal, groups. *)
From Coq Require Import ZArith String.
From Verif Require Import M_Base P_Base M_Double M_Json M_Mode M_Key M_Blocking M_Metadata S_Metadata P_Metadata
  M_Fs M_Attributes S_Attributes P_Attributes M_Container S_Container M_Format M_Bytes M_Dataset P_Container.
Import ListNotations.
Local Open Scope list_scope.
Local Open Scope N_scope.

(** * Failing creation *)


Lemma fs_create_fails h ka m s : fs_ok s ->
  let (s', r) := fs_create_dataset h ka m s in
  is_ok r = false ->
  s' = s \/
  (h_mode h <> Mode_r /\ s (h_path h) = None /\
   ((is_ok (to_json m) = false /\ only_dirs s s' (h_path h)) \/
    (is_ok (make_dataset h ka m) = false /\
     exists j, to_json m = Ok j /\ fresh_container s s' (h_path h) (md_doc m) (reparse j)))).
Proof.
  intros F. unfold fs_create_dataset, fbind at 1.
  destruct (node_create h s) as [s1 r1] eqn:C.
  assert (C' : is_ok r1 = false -> s1 = s).
  { unfold node_create in C. destruct is_mode_r; [inversion C; now subst|].
    destruct fs_exists; [inversion C; now subst|]. unfold fs_mkdirs in C.
    destruct existsb; inversion C; subst; [reflexivity|discriminate]. }
  destruct r1 as [[]|e|]; [|intros _; left; now apply C'|intros _; left; now apply C'].
  apply node_create_inv in C; [|assumption]. destruct C as [M [A S1]].
  assert (D : s1 (h_path h) = Some NDir) by now rewrite S1, below_refl.
  assert (N : forall a, s1 (h_path h ++ [a]) = None).
  { intros a. rewrite S1, below_doc. apply (fs_ok_absent F A). apply below_app. }
  unfold fbind, fret.
  assert (X : is_ok (to_json m) = false -> only_dirs s (fst (write_dataset_metadata (h_path h) m s1)) (h_path h)
              /\ is_ok (snd (write_dataset_metadata (h_path h) m s1)) = false).
  { intros J. destruct (@dataset_metadata_fails s1 (h_path h) m _ D N eq_refl J) as [Y1 Y2].
    rewrite Y1. now split. }
  destruct (to_json m) as [j|e|] eqn:J.
  - rewrite (dataset_metadata_new D N J). intros H. right. split; [assumption|]. split; [assumption|].
    right. split; [assumption|]. exists j. split; [reflexivity|].
    intros q. destruct (path_eqb q (h_path h ++ [md_doc m])) eqn:E.
    + apply path_eqb_eq in E. subst q. now rewrite below_doc.
    + rewrite S1. destruct (below q (h_path h)); [reflexivity|].
      destruct (below (h_path h) q) eqn:B; [|reflexivity]. now apply (fs_ok_absent F A).
  - destruct (X eq_refl) as [X1 X2]. destruct write_dataset_metadata as [s2 r2]. simpl in X1, X2.
    destruct r2; [discriminate| |]; intros _; right; split; [assumption|split; [assumption|now left]|assumption|split; [assumption|now left]].
  - destruct (X eq_refl) as [X1 X2]. destruct write_dataset_metadata as [s2 r2]. simpl in X1, X2.
    destruct r2; [discriminate| |]; intros _; right; split; [assumption|split; [assumption|now left]|assumption|split; [assumption|now left]].
Qed.

(** Outside the new directory and the directories on the way nothing changes,
    whether the call fails or not. *)
Lemma fs_create_frame h ka m s q : fs_ok s ->
  below q (h_path h) = false -> below (h_path h) q = false ->
  fst (fs_create_dataset h ka m s) q = s q.
Proof.
  intros F B1 B2. assert (X := fs_create_fails h ka m F).
  destruct (fs_create_dataset h ka m s) as [s' r] eqn:E. simpl.
  assert (Y : forall name j, fresh_container s s' (h_path h) name j -> s' q = s q).
  { intros name j H. rewrite H, B1, B2, path_eqb_ne; [reflexivity|].
    intros ->. now rewrite below_app in B2. }
  destruct r as [o| |].
  - apply fs_create_inv in E; [|assumption]. destruct E as [j E]. apply (Y _ _ (cr_fs E)).
  - destruct (X eq_refl) as [->|[_ [_ [[_ H]|[_ [j [_ H]]]]]]]; [reflexivity| |now apply (Y _ _ H)].
    now rewrite H, B1.
  - destruct (X eq_refl) as [->|[_ [_ [[_ H]|[_ [j [_ H]]]]]]]; [reflexivity| |now apply (Y _ _ H)].
    now rewrite H, B1.
Qed.

(** * Removal *)

Lemma remove_exact h s : can_write (h_mode h) = true -> s (h_path h) <> None ->
  exists s', node_remove h s = (s', Ok tt) /\
    forall q, s' q = if below (h_path h) q then None else s q.
Proof.
  intros W E. unfold node_remove. rewrite W. unfold fs_exists. destruct (s (h_path h)); [|congruence].
  eexists. split; [reflexivity|]. reflexivity.
Qed.

Lemma remove_fails h s : can_write (h_mode h) = false \/ s (h_path h) = None ->
  node_remove h s = (s, Throw EInvalidArgument).
Proof.
  intros H. unfold node_remove. destruct (can_write (h_mode h)); [|reflexivity].
  unfold fs_exists. destruct H as [H| ->]; [discriminate|reflexivity].
Qed.

Lemma below_cons_trans p q a : below p q = true -> below p (q ++ [a]) = true.
Proof. intros B. apply below_spec in B. destruct B as [r ->]. rewrite <- app_assoc. apply below_app. Qed.

Lemma remove_fs_ok p (s s' : fsys) : fs_ok s -> p <> [] -> (forall q, s' q = if below p q then None else s q) -> fs_ok s'.
Proof.
  intros F N H. split.
  - rewrite H. destruct p; [congruence|]. apply F.
  - intros q a. rewrite !H. destruct (below p (q ++ [a])) eqn:B; [congruence|].
    destruct (below p q) eqn:B'; [now rewrite (below_cons_trans _ B') in B|]. apply F.
Qed.

(** * Groups *)


Lemma group_metadata_new s p z fmt : s p = Some NDir -> (forall a, s (p ++ [a]) = None) ->
  write_group_metadata p z fmt s =
  if z then
  ((fun q => if path_eqb q (p ++ [fst (new_doc z fmt)]) then Some (NDoc (snd (new_doc z fmt))) else s q), Ok tt)
  else (s, Ok tt).
Proof.
  intros D N. destruct z; [|reflexivity].
  rewrite <- (@file_metadata_new s p true fmt D N). reflexivity.
Qed.

Lemma app_cons_ne (p : path) a r b : a :: r <> [b] -> p ++ a :: r <> p ++ [b].
Proof. intros N E. apply N. now apply app_inv_head in E. Qed.

Theorem create_group_made root key fmt s s' : fs_ok s -> create_group root key fmt s = (s', Ok tt) ->
  exists z, is_zarr_group s (h_path root) = Ok z /\ s (h_path root ++ key) = None /\
            group_made s s' (h_path root ++ key) z fmt.
Proof.
  intros F. unfold create_group, fbind at 1, freading.
  destruct (is_zarr_group s (h_path root)) as [z| |] eqn:Z; [|discriminate|discriminate].
  unfold fbind. set (p := h_path root ++ key).
  destruct (node_create _ s) as [s1 [[]| |]] eqn:C; [|discriminate|discriminate].
  apply node_create_inv in C; [|assumption]. cbn [h_path h_mode] in C. destruct C as [M [A S1]].
  assert (D : s1 p = Some NDir) by (unfold p; now rewrite S1, below_refl).
  assert (N : forall a, s1 (p ++ [a]) = None).
  { intros a. unfold p. rewrite S1, below_doc. apply (fs_ok_absent F A). apply below_app. }
  rewrite (@group_metadata_new s1 p z fmt D N). intros H.
  exists z. split; [reflexivity|]. split; [exact A|].
  assert (NB : forall a r, below (p ++ a :: r) p = false).
  { intros a r. apply below_antisym'; [apply below_app|]. intros E.
    assert (X : p ++ [] = p ++ a :: r) by now rewrite app_nil_r. apply app_inv_head in X. discriminate. }
  destruct z; inversion H; subst s'; clear H.
  - split.
    + intros q B. rewrite path_eqb_ne; [now rewrite S1; fold p; rewrite B|].
      intros ->. now rewrite NB in B.
    + intros _. now rewrite path_eqb_refl.
    + intros a r X. rewrite path_eqb_ne; [|apply app_cons_ne; tauto].
      rewrite S1. fold p. rewrite NB. apply (fs_ok_absent F A). apply below_app.
    + intros q B1 B2. rewrite path_eqb_ne; [now rewrite S1; fold p; rewrite B1|].
      intros ->. now rewrite below_app in B2.
  - split.
    + intros q B. now rewrite S1; fold p; rewrite B.
    + discriminate.
    + intros a r X. rewrite S1. fold p. rewrite NB. apply (fs_ok_absent F A). apply below_app.
    + intros q B1 B2. now rewrite S1; fold p; rewrite B1.
Qed.

Lemma root_kept s s' root key : s root <> None ->
  key_free key ->
  (forall q, below q (root ++ key) = true -> s' q = Some NDir) ->
  (forall q, below q (root ++ key) = false -> below (root ++ key) q = false -> s' q = s q) ->
  is_zarr_group s' root = is_zarr_group s root.
Proof.
  intros R K D FR. unfold is_zarr_group, fs_exists. rewrite (D root) by apply below_app.
  destruct key as [|b key]; [elim K|]. destruct K as [K1 K2].
  assert (X : forall a, b <> a -> s' (root ++ [a]) = s (root ++ [a])).
  { intros a N. apply FR; rewrite app_below; simpl.
    - destruct (String.eqb_spec a b); [congruence|reflexivity].
    - destruct (String.eqb_spec b a); [congruence|reflexivity]. }
  rewrite !X by assumption. destruct (s root); [reflexivity|congruence].
Qed.

Lemma zarr_root_exists s p z : is_zarr_group s p = Ok z -> s p <> None.
Proof. unfold is_zarr_group, fs_exists. destruct (s p); [congruence|discriminate]. Qed.

(** A new group is a group. *)
Theorem new_group_is_group root key fmt s s' : fs_ok s -> key_free key ->
  create_group root key fmt s = (s', Ok tt) ->
  is_sub_group s' (h_path root) key = Ok true.
Proof.
  intros F K C. destruct (create_group_made F C) as [z [Z [A G]]].
  unfold is_sub_group. rewrite (@root_kept s s' (h_path root) key); [|now apply (zarr_root_exists Z)|assumption|apply G|apply G].
  rewrite Z. cbn [bind]. unfold fs_exists at 1. rewrite (gm_dirs G (below_refl _)). cbn [negb].
  destruct z.
  - assert (E := gm_doc G eq_refl). rewrite !app_assoc. unfold fs_exists, read_doc_or, read_doc.
    cbn [new_doc] in E. destruct (fmt =? 3)%Z eqn:X; cbn [fst snd] in E.
    + now rewrite E.
    + rewrite (@gm_empty _ _ _ _ _ G "zarr.json"%string []); [|cbn [new_doc]; rewrite X; cbn [fst]; intros [_ Y]; discriminate].
      now rewrite E.
  - unfold read_doc. rewrite (@gm_empty _ _ _ _ _ G "attributes.json"%string []); [reflexivity|]. intros [Y _]. discriminate.
Qed.

(** A new dataset is none. *)
Lemma n5_json_keys m j : to_json_n5 m = Ok j ->
  exists a b c d, j = JObj [("dimensions", a); ("blockSize", b); ("dataType", c); ("compression", d)]%string.
Proof.
  unfold to_json_n5. destruct (eat _); [|discriminate|discriminate].
  destruct write_n5_options; [|discriminate|discriminate]. cbn [bind]. intros H. inversion H. eauto.
Qed.
Lemma v3_json_type m j : to_json_v3 m = Ok j -> jfind "node_type" (reparse j) = Some (JStr "array").
Proof.
  unfold to_json_v3. destruct (eat _); [|discriminate|discriminate].
  destruct fill_json_v3; [|discriminate|discriminate].
  destruct write_v3_codecs; [|discriminate|discriminate]. cbn [bind]. intros H. inversion H. reflexivity.
Qed.

Theorem new_dataset_is_none root key mode ka s s' m o j : fs_ok s -> key_free key ->
  is_zarr_group s root = Ok (md_zarr m) ->
  created s s' (Handle (root ++ key) mode) ka m o j ->
  is_sub_group s' root key = Ok false.
Proof.
  intros F K Z [M A J _ FR]. cbn [h_path] in *. destruct (fresh_paths FR) as [PD [PE PN]].
  unfold is_sub_group. rewrite (fresh_root FR K); [|now apply (zarr_root_exists Z)|assumption].
  rewrite Z. cbn [bind]. unfold fs_exists at 1. rewrite PD. cbn [negb].
  unfold to_json in J. unfold md_doc in *. rewrite !app_assoc. unfold fs_exists, read_doc_or, read_doc.
  destruct (md_zarr m).
  - destruct (md_format m =? 3)%Z; cbn [andb] in J.
    + rewrite PE. cbn [bind]. apply v3_json_type in J. destruct (reparse j); try discriminate.
      cbn [jfind] in J. unfold jvalue. rewrite J. reflexivity.
    + rewrite !PN by discriminate. reflexivity.
  - rewrite PE. cbn [andb] in J. apply n5_json_keys in J. destruct J as [a [b [c [d ->]]]].
    cbn [bind reparse map]. reflexivity.
Qed.

(** * Attributes do not change what a node is *)

Definition is_ds_key (a : string) : bool := existsb (String.eqb a) n5_dataset_keys.
Definition dcount (l : list (string * json)) : N :=
  lenN (filter (fun kv => existsb (String.eqb (fst kv)) n5_dataset_keys) l).

Lemma dcount_cons k v l : dcount ((k, v) :: l) = (if is_ds_key k then 1 else 0) + dcount l.
Proof.
  unfold dcount. cbn [filter fst]. fold (is_ds_key k). unfold lenN. destruct (is_ds_key k); cbn [List.length]; lia.
Qed.
Lemma dcount_jupd k v l : is_ds_key k = false -> dcount (jupd k v l) = dcount l.
Proof.
  intros H. induction l as [|[k' v'] l IH].
  - cbn [jupd]. now rewrite dcount_cons, H.
  - cbn [jupd]. destruct String.eqb; rewrite !dcount_cons; [reflexivity|]. now rewrite IH.
Qed.
Lemma dcount_jdel k l : is_ds_key k = false -> dcount (jdel k l) = dcount l.
Proof.
  intros H. induction l as [|[k' v'] l IH]; [reflexivity|].
  cbn [jdel]. destruct (String.eqb_spec k' k) as [->|_]; rewrite !dcount_cons; [|now rewrite IH].
  now rewrite H, IH.
Qed.
Lemma dcount_reparse l : dcount (map (fun kv => match kv with (k, v) => (k, reparse v) end) l) = dcount l.
Proof.
  induction l as [|[k v] l IH]; [reflexivity|]. cbn [map]. now rewrite !dcount_cons, IH.
Qed.
Lemma dcount_merge : forall l o, (forall k, In k (map fst l) -> is_ds_key k = false) ->
  exists o', foldM (fun acc kv => jput (fst kv) (snd kv) acc) l (JObj o) = Ok (JObj o') /\ dcount o' = dcount o.
Proof.
  induction l as [|[k v] l IH]; intros o H; [now exists o|].
  cbn [foldM fst snd jput bind]. destruct (IH (jupd k v o)) as [o' [E1 E2]].
  { intros. apply H. now right. }
  exists o'. split; [exact E1|]. rewrite E2. apply dcount_jupd. apply H. now left.
Qed.

Lemma existsb_sym k ks : existsb (fun b => String.eqb b k) ks = existsb (String.eqb k) ks.
Proof. induction ks; simpl; [reflexivity|]. now rewrite IHks, String.eqb_sym. Qed.

Lemma n5_doc_kept (s : fsys) p l o m :
  s p = Some NDir -> is_zarr_dataset s p = Ok false ->
  s (p ++ ["attributes.json"%string]) = Some (NDoc (JObj l)) ->
  exists l', fst (run_aop HDataset m p o s) (p ++ ["attributes.json"%string]) = Some (NDoc (JObj l')) /\
             dcount l' = dcount l.
Proof.
  intros D Z E.
  assert (W : forall j, write_doc p "attributes.json" j s =
     ((fun q => if path_eqb q (p ++ ["attributes.json"%string]) then Some (NDoc (reparse j)) else s q), Ok tt)).
  { intros j. apply (@write_doc_at s p _ j (Some (NDoc (JObj l)))); [assumption|assumption|discriminate]. }
  destruct o as [j|a]; cbn [run_aop].
  - unfold write_attributes. destruct (negb (can_write m)); [exists l; split; [exact E|reflexivity]|].
    unfold fbind at 1, freading. cbn [handle_is_zarr]. rewrite Z.
    unfold fbind at 1, fret. destruct (protect_json HDataset j) as [[]| |] eqn:P;
      [|exists l; split; [exact E|reflexivity]|exists l; split; [exact E|reflexivity]].
    unfold gen_write_attributes. cbn [andb attributes_name].
    unfold fbind at 1, freading, read_doc_or, read_doc. rewrite E. cbn [bind].
    unfold jmerge, fbind, fret. destruct (jentries j) as [es| |] eqn:J; cbn [bind];
      [|exists l; split; [exact E|reflexivity]|exists l; split; [exact E|reflexivity]].
    destruct (@dcount_merge es l) as [l' [M1 M2]].
    { intros k I. cbn [protect_json] in P. destruct existsb eqn:X in P; [discriminate|].
      destruct j; try discriminate J; cbn in J.
      - inversion J; subst es. destruct I.
      - destruct l0; inversion J; subst. destruct I.
      - inversion J; subst es. destruct (is_ds_key k) eqn:Y; [|reflexivity].
        unfold is_ds_key in Y. apply existsb_exists in Y. destruct Y as [k2 [Y1 Y2]].
        apply String.eqb_eq in Y2. subst k2.
        assert (existsb (fun a => jcontains a (JObj l0)) n5_dataset_keys = true); [|congruence].
        apply existsb_exists. exists k. split; [assumption|]. unfold jcontains. cbn [jfind].
        destruct (jlookup k l0) eqn:G; [reflexivity|]. now apply jlookup_none_in in G. }
    rewrite M1, W. cbn [fst]. rewrite path_eqb_refl. cbn [reparse]. eexists. split; [reflexivity|].
    now rewrite dcount_reparse.
  - unfold remove_attribute. destruct (negb (can_write m)); [exists l; split; [exact E|reflexivity]|].
    unfold fbind at 1, freading. cbn [handle_is_zarr]. rewrite Z.
    unfold fbind at 1, fret. destruct (protect_key HDataset a) as [[]| |] eqn:P;
      [|exists l; split; [exact E|reflexivity]|exists l; split; [exact E|reflexivity]].
    unfold gen_remove_attribute. cbn [andb attributes_name].
    unfold fbind at 1, freading, read_doc. rewrite E. cbn [jerase].
    unfold fbind, fret. rewrite W. cbn [fst]. rewrite path_eqb_refl. cbn [reparse]. eexists. split; [reflexivity|].
    rewrite dcount_reparse. apply dcount_jdel. cbn [protect_key] in P. unfold is_ds_key.
    rewrite <- existsb_sym. now destruct existsb.
Qed.

Lemma n5_doc_kept_run p m : forall ops s l, can_write m = true -> Forall aop_ok ops ->
  attr_node HDataset s p false false ->
  s (p ++ ["attributes.json"%string]) = Some (NDoc (JObj l)) ->
  exists l', snd (api_run HDataset m p ops s) (p ++ ["attributes.json"%string]) = Some (NDoc (JObj l')) /\
             dcount l' = dcount l.
Proof.
  induction ops as [|o ops IH]; intros s l W A N E; [now exists l|].
  cbn [api_run]. inversion A; subst.
  assert (S := @run_aop_ok HDataset m s p false false o W N H1).
  destruct (@n5_doc_kept s p l o m (an_dir N) (an_zarr N) E) as [l1 [E1 C1]].
  destruct (run_aop HDataset m p o s) as [s1 r]. simpl in *.
  destruct (IH s1 l1 W H2 (proj1 S) E1) as [l2 [E2 C2]].
  destruct (api_run HDataset m p ops s1). exists l2. split; [exact E2|congruence].
Qed.

Theorem attributes_keep_kind k m root key v z ops s :
  key <> [] -> k = HDataset \/ z = true ->
  can_write m = true -> attr_node k s (root ++ key) v z -> Forall aop_ok ops ->
  is_sub_group (snd (api_run k m (root ++ key) ops s)) root key = is_sub_group s root key.
Proof.
  intros K KZ W A F. set (p := root ++ key) in *.
  destruct (@api_run_ok k m p v z W ops s A F) as [A2 [Q [V [_ _]]]].
  set (s' := snd (api_run k m p ops s)) in *.
  assert (P1 : forall a b, root ++ [a] <> p ++ [b]).
  { intros a b E. unfold p in E. rewrite <- app_assoc in E. apply app_inv_head in E.
    destruct key as [|x key]; [congruence|]. inversion E. destruct key; discriminate. }
  assert (P2 : forall b, root <> p ++ [b]).
  { intros b E. assert (X : root ++ [] = root ++ key ++ [b]) by (rewrite app_nil_r, app_assoc; exact E).
    apply app_inv_head in X. destruct key; discriminate. }
  assert (R : is_zarr_group s' root = is_zarr_group s root).
  { unfold is_zarr_group, fs_exists. rewrite !Q; [reflexivity|apply P1|apply P1|apply P2]. }
  unfold is_sub_group. fold p. rewrite R. destruct (is_zarr_group s root) as [zr| |]; try reflexivity. cbn [bind].
  assert (X : fs_exists s' p = true) by (unfold fs_exists; now rewrite (an_dir A2)).
  assert (X0 : fs_exists s p = true) by (unfold fs_exists; now rewrite (an_dir A)).
  rewrite X, X0. cbn [negb]. rewrite !app_assoc. fold p. unfold fs_exists, read_doc_or, read_doc.
  assert (O : forall a, a <> attr_file v z -> s' (p ++ [a]) = s (p ++ [a])).
  { intros a N. apply Q. intros E. apply app_inj_tail in E. tauto. }
  destruct v.
  - (* zarr.json *)
    specialize (V eq_refl). unfold attr_file in *. rewrite (O ".zgroup"%string) by discriminate.
    rewrite (O "attributes.json"%string) by discriminate.
    pose proof (an_doc A) as D. pose proof (an_doc A2) as D2. unfold attr_file in D, D2.
    unfold doc_frame in V.
    destruct (s (p ++ ["zarr.json"%string])) as [[|[]|]|]; try tauto; try (destruct D; discriminate).
    destruct (s' (p ++ ["zarr.json"%string])) as [[|[]|]|]; try tauto; try (destruct D2; discriminate).
    cbn [bind]. unfold jvalue.
    assert (Y := V "node_type"%string ltac:(discriminate)). cbn [jfind] in Y. rewrite Y. reflexivity.
  - assert (E1 : s' (p ++ ["zarr.json"%string]) = s (p ++ ["zarr.json"%string])).
    { apply O. destruct z; discriminate. }
    assert (E2 : s' (p ++ [".zgroup"%string]) = s (p ++ [".zgroup"%string])).
    { apply O. destruct z; discriminate. }
    rewrite E1, E2. destruct zr; [reflexivity|].
    destruct z.
    + rewrite (O "attributes.json"%string) by discriminate. reflexivity.
    + destruct KZ as [->|Y]; [|discriminate].
      pose proof (an_doc A) as D. unfold attr_file in D.
      destruct (s (p ++ ["attributes.json"%string])) as [[|[| | | | | | |l]|]|] eqn:E; cbn [attr_doc_ok] in D; try tauto. 2: (exfalso; destruct D as [_ D]; discriminate (D eq_refl)).
      destruct (@n5_doc_kept_run p m ops s l W F A E) as [l' [E' C']]. fold s' in E'. rewrite E'.
      cbn [bind]. unfold has_all_n5, jentries. cbn [bind].
      change (lenN (filter (fun kv : string * json => existsb (String.eqb (fst kv)) n5_dataset_keys) l')) with (dcount l').
      change (lenN (filter (fun kv : string * json => existsb (String.eqb (fst kv)) n5_dataset_keys) l)) with (dcount l).
      now rewrite C'.
Qed.

(** * createDataset from arguments *)

Lemma create_inv root key dn sh ch cn op fill delim fmt enc shard s s' o : fs_ok s ->
  create_dataset root key dn sh ch cn op fill delim fmt enc shard s = (s', Ok o) ->
  exists z m j, is_zarr_group s (h_path root) = Ok z /\
    create_metadata dn sh ch z cn op fill delim fmt enc shard = Ok m /\
    created s s' (Handle (h_path root ++ key) (h_mode root)) (KeyArgs (md_delim m) (md_format m) (md_enc m)) m o j /\
    op_dtype o = md_dtype m.
Proof.
  intros F. unfold create_dataset, fbind at 1, freading.
  destruct is_zarr_group as [z| |]; [|discriminate|discriminate].
  unfold fbind, fret. destruct create_metadata as [m| |] eqn:C; [|discriminate|discriminate].
  intros H. apply fs_create_inv in H; [|assumption]. destruct H as [j H]. exists z, m, j.
  split; [reflexivity|]. split; [exact C|].
  destruct (create_fields C) as [_ [E1 [_ [_ [_ [_ [_ [_ [E2 [E3 _]]]]]]]]]].
  subst fmt delim enc. split; [exact H|].
  assert (X := cr_made H). unfold make_dataset in X.
  destruct mk_blocking; [|discriminate|discriminate]. destruct element_fill; [|discriminate|discriminate].
  destruct init_compressor; [|discriminate|discriminate]. cbn [bind] in X. now inversion X.
Qed.

Theorem create_reopens root key dn sh ch cn op fill delim fmt enc shard s s' o z :
  fs_ok s -> key_free key -> options_ok op -> dbl_ok fill ->
  is_zarr_group s (h_path root) = Ok z -> (z = true -> fmt = 2%Z \/ fmt = 3%Z) ->
  create_dataset root key dn sh ch cn op fill delim fmt enc shard s = (s', Ok o) ->
  recordable_codec z fmt (op_codec o) -> recordable_fill z (op_dtype o) (op_fill o) ->
  exists o', open_dataset s' root key = Ok o' /\ same_object o o'.
Proof.
  intros F K O D Z FM C RC RF. apply create_inv in C; [|assumption].
  destruct C as [z' [m [j [Z' [CM [CR DT]]]]]]. rewrite Z in Z'. inversion Z'; subst z'.
  destruct (create_fields CM) as [E1 [E2 [_ [E4 [E5 [_ [E7 [E8 [_ [_ [E11 [E12 E13]]]]]]]]]]]].
  destruct root as [rp rm]. cbn [h_path h_mode] in *.
  apply (@created_reopens rp key rm s s' m o j); try assumption; try congruence.
  - rewrite E1, E2. exact FM.
  - rewrite E7. now apply options_ok_default.
  - rewrite E11, E1, E2. intros X. destruct (E13 X) as [Y1 [Y2 _]]. now split.
Qed.

Theorem create_is_no_group root key dn sh ch cn op fill delim fmt enc shard s s' o :
  fs_ok s -> key_free key ->
  create_dataset root key dn sh ch cn op fill delim fmt enc shard s = (s', Ok o) ->
  is_sub_group s' (h_path root) key = Ok false.
Proof.
  intros F K C. apply create_inv in C; [|assumption].
  destruct C as [z [m [j [Z [CM [CR _]]]]]].
  apply (@new_dataset_is_none (h_path root) key (h_mode root) _ s s' m o j F K) in CR; [assumption|].
  destruct (create_fields CM) as [E1 _]. now rewrite E1.
Qed.

Theorem create_fails root key dn sh ch cn op fill delim fmt enc shard s :
  fs_ok s ->
  let p := h_path root ++ key in
  let (s', r) := create_dataset root key dn sh ch cn op fill delim fmt enc shard s in
  is_ok r = false ->
  s' = s \/
  exists z m, is_zarr_group s (h_path root) = Ok z /\
    create_metadata dn sh ch z cn op fill delim fmt enc shard = Ok m /\
    h_mode root <> Mode_r /\ s p = None /\
    ((is_ok (to_json m) = false /\ only_dirs s s' p) \/
     (is_ok (make_dataset (Handle p (h_mode root)) (KeyArgs delim fmt enc) m) = false /\
      exists j, to_json m = Ok j /\ fresh_container s s' p (md_doc m) (reparse j))).
Proof.
  intros F p. unfold create_dataset, fbind at 1, freading.
  destruct (is_zarr_group s (h_path root)) as [z| |]; [|intros _; now left|intros _; now left].
  unfold fbind, fret. destruct create_metadata as [m| |] eqn:C; [|intros _; now left|intros _; now left].
  fold p. assert (X := fs_create_fails (Handle p (h_mode root)) (KeyArgs delim fmt enc) m F).
  destruct fs_create_dataset as [s' r]. intros E. destruct (X E) as [->|[Y1 [Y2 Y3]]]; [now left|].
  right. exists z, m. cbn [h_path h_mode] in *. repeat split; assumption.
Qed.

Theorem create_frame root key dn sh ch cn op fill delim fmt enc shard s q :
  fs_ok s -> below q (h_path root ++ key) = false -> below (h_path root ++ key) q = false ->
  fst (create_dataset root key dn sh ch cn op fill delim fmt enc shard s) q = s q.
Proof.
  intros F B1 B2. unfold create_dataset, fbind at 1, freading.
  destruct (is_zarr_group s (h_path root)) as [z| |]; [|reflexivity|reflexivity].
  unfold fbind, fret. destruct create_metadata as [m| |]; [|reflexivity|reflexivity].
  now apply fs_create_frame.
Qed.

(** Existing nodes are never replaced. *)
Theorem create_existing root key dn sh ch cn op fill delim fmt enc shard s :
  s (h_path root ++ key) <> None ->
  let (s', r) := create_dataset root key dn sh ch cn op fill delim fmt enc shard s in
  s' = s /\ is_ok r = false.
Proof.
  intros E. unfold create_dataset, fbind at 1, freading.
  destruct (is_zarr_group s (h_path root)) as [z| |]; [|now split|now split].
  unfold fbind, fret. destruct create_metadata as [m| |]; [|now split|now split].
  unfold fs_create_dataset, fbind, node_create. cbn [h_mode h_path].
  destruct is_mode_r; [now split|]. unfold fs_exists.
  destruct (s (h_path root ++ key)); [now split|congruence].
Qed.

Theorem group_existing root key fmt s :
  s (h_path root ++ key) <> None ->
  let (s', r) := create_group root key fmt s in s' = s /\ is_ok r = false.
Proof.
  intros E. unfold create_group, fbind at 1, freading.
  destruct (is_zarr_group s (h_path root)) as [z| |]; [|now split|now split].
  unfold fbind, node_create. cbn [h_mode h_path].
  destruct is_mode_r; [now split|]. unfold fs_exists.
  destruct (s (h_path root ++ key)); [now split|congruence].
Qed.

(** * When creation cannot fail half way *)

Lemma sfind_sput V k k' (v : V) l : sfind k (sput k' v l) = if String.eqb k' k then Some v else sfind k l.
Proof.
  induction l as [|[a b] l IH]; cbn [sput sfind]; [reflexivity|].
  destruct (String.eqb_spec a k') as [->|N]; cbn [sfind].
  - destruct (String.eqb k' k); reflexivity.
  - rewrite IH. destruct (String.eqb_spec a k) as [->|N2]; [|reflexivity].
    destruct (String.eqb_spec k' k); [congruence|reflexivity].
Qed.

Lemma sfind_default k k' v o :
  sfind k (default_opt k' v o) =
  match sfind k o with Some x => Some x | None => if String.eqb k' k then Some v else None end.
Proof.
  unfold default_opt. destruct (sfind k' o) eqn:E.
  - destruct (sfind k o) eqn:F; [reflexivity|]. destruct (String.eqb_spec k' k); [congruence|reflexivity].
  - rewrite sfind_sput. destruct (String.eqb_spec k' k) as [->|N].
    + now rewrite E.
    + now destruct (sfind k o).
Qed.

Lemma typed_int o k v : options_typed o -> sfind k o = Some v -> k <> "useZlib"%string -> k <> "codec"%string ->
  exists z, v = OInt z.
Proof. intros T E N1 N2. specialize (T k v E). destruct v; [eauto|congruence|congruence]. Qed.
Lemma typed_bool o v : options_typed o -> sfind "useZlib" o = Some v -> exists b, v = OBool b.
Proof. intros T E. specialize (T _ v E). destruct v; cbn in T; [tauto|eauto|discriminate]. Qed.
Lemma typed_str o v : options_typed o -> sfind "codec" o = Some v -> exists b, v = OStr b.
Proof. intros T E. specialize (T _ v E). destruct v; cbn in T; [tauto|discriminate|eauto]. Qed.

Lemma int_default k o : options_typed o -> k <> "useZlib"%string -> k <> "codec"%string ->
  forall d, exists z, match sfind k o with Some x => Some x | None => Some (OInt d) end = Some (OInt z).
Proof.
  intros T N1 N2 d. destruct (sfind k o) eqn:E; [|eauto].
  destruct (typed_int T E N1 N2) as [z ->]. eauto.
Qed.


Lemma defaults_write c z fmt o : options_typed o -> codec_supported z fmt c ->
  is_ok (init_compressor c (default_options c z o)) = true /\
  (z = false -> is_ok (write_n5_options c (default_options c z o)) = true) /\
  (z = true -> is_ok (write_zarr_options c (default_options c z o)) = true) /\
  (z = true -> fmt = 3%Z -> forall ts, is_ok (write_v3_codecs c (default_options c z o) ts) = true).
Proof.
  intros T S.
  assert (TZ : exists b, match sfind "useZlib" o with Some x => Some x | None => Some (OBool z) end = Some (OBool b)).
  { destruct (sfind "useZlib" o) eqn:E; [|eauto]. destruct (typed_bool T E) as [b ->]. eauto. }
  assert (TC : exists b, match sfind "codec" o with Some x => Some x | None => Some (OStr "lz4") end = Some (OStr b)).
  { destruct (sfind "codec" o) eqn:E; [|eauto]. destruct (typed_str T E) as [b ->]. eauto. }
  destruct TZ as [bz TZ]. destruct TC as [bc TC].
  pose proof (@int_default "level"%string o T ltac:(discriminate) ltac:(discriminate)) as L.
  pose proof (@int_default "shuffle"%string o T ltac:(discriminate) ltac:(discriminate) 1%Z) as [zs Hs].
  pose proof (@int_default "blocksize"%string o T ltac:(discriminate) ltac:(discriminate) 0%Z) as [zb Hb].
  pose proof (@int_default "nthreads"%string o T ltac:(discriminate) ltac:(discriminate) 1%Z) as [zt Ht].
  destruct c.
  - (* raw *) cbn. auto.
  - (* blosc *)
    destruct (L 5%Z) as [zl Hl].
    set (o' := default_options C_blosc z o).
    assert (F1 : sfind "level" o' = Some (OInt zl)).
    { unfold o', default_options. rewrite !sfind_default. cbn [String.eqb Ascii.eqb Bool.eqb]. rewrite <- Hl. now destruct (sfind "level" o). }
    assert (F2 : sfind "shuffle" o' = Some (OInt zs)).
    { unfold o', default_options. rewrite !sfind_default. cbn [String.eqb Ascii.eqb Bool.eqb]. rewrite <- Hs. now destruct (sfind "shuffle" o). }
    assert (F3 : sfind "blocksize" o' = Some (OInt zb)).
    { unfold o', default_options. rewrite !sfind_default. cbn [String.eqb Ascii.eqb Bool.eqb]. rewrite <- Hb. now destruct (sfind "blocksize" o). }
    assert (F4 : sfind "nthreads" o' = Some (OInt zt)).
    { unfold o', default_options. rewrite !sfind_default. cbn [String.eqb Ascii.eqb Bool.eqb]. rewrite <- Ht. now destruct (sfind "nthreads" o). }
    assert (F5 : sfind "codec" o' = Some (OStr bc)).
    { unfold o', default_options. rewrite !sfind_default. cbn [String.eqb Ascii.eqb Bool.eqb]. rewrite <- TC. now destruct (sfind "codec" o). }
    unfold init_compressor, write_n5_options, write_zarr_options, write_v3_codecs, opt_int, opt_str, sat.
    rewrite F1, F2, F3, F4, F5. cbn. auto.
  - destruct (L 5%Z) as [zl Hl]. set (o' := default_options C_zlib z o).
    assert (F1 : sfind "level" o' = Some (OInt zl)).
    { unfold o', default_options. rewrite !sfind_default. cbn [String.eqb Ascii.eqb Bool.eqb]. rewrite <- Hl. now destruct (sfind "level" o). }
    assert (F2 : sfind "useZlib" o' = Some (OBool bz)).
    { unfold o', default_options. rewrite !sfind_default. cbn [String.eqb Ascii.eqb Bool.eqb]. rewrite <- TZ. now destruct (sfind "useZlib" o). }
    unfold init_compressor, write_n5_options, write_zarr_options, write_v3_codecs, opt_int, opt_bool, sat.
    rewrite F1, F2. cbn. auto.
  - destruct (L 5%Z) as [zl Hl].
    assert (F1 : sfind "level" (default_options C_bzip2 z o) = Some (OInt zl)).
    { unfold default_options. rewrite sfind_default. exact Hl. }
    unfold init_compressor, write_n5_options, write_zarr_options, write_v3_codecs, opt_int, sat.
    rewrite F1. cbn. repeat split; auto. intros Z X. destruct (S Z) as [_ Y]. destruct (Y X) as [Q|[Q|[Q|Q]]]; discriminate.
  - destruct (L 6%Z) as [zl Hl].
    assert (F1 : sfind "level" (default_options C_lz4 z o) = Some (OInt zl)).
    { unfold default_options. rewrite sfind_default. exact Hl. }
    unfold init_compressor, write_n5_options, write_zarr_options, write_v3_codecs, opt_int, sat.
    rewrite F1. cbn. repeat split; auto. intros Z X. destruct (S Z) as [_ Y]. destruct (Y X) as [Q|[Q|[Q|Q]]]; discriminate.
  - destruct (L 6%Z) as [zl Hl].
    assert (F1 : sfind "level" (default_options C_xz z o) = Some (OInt zl)).
    { unfold default_options. rewrite sfind_default. exact Hl. }
    unfold init_compressor, write_n5_options, opt_int, sat.
    rewrite F1. cbn. repeat split; auto; intros Z; destruct (S Z) as [Y _]; congruence.
  - destruct (L 3%Z) as [zl Hl].
    assert (F1 : sfind "level" (default_options C_zstd z o) = Some (OInt zl)).
    { unfold default_options. rewrite sfind_default. exact Hl. }
    unfold init_compressor, write_n5_options, write_zarr_options, write_v3_codecs, opt_int, sat.
    rewrite F1. cbn. auto.
Qed.

Lemma is_ok_ex A (x : outcome A) : is_ok x = true -> exists a, x = Ok a.
Proof. destruct x; [eauto|discriminate|discriminate]. Qed.

Lemma created_json dn sh ch z cn op fill delim fmt enc shard m e :
  create_metadata dn sh ch z cn op fill delim fmt enc shard = Ok m ->
  options_typed op -> codec_supported z fmt (md_comp m) ->
  element_fill (md_dtype m) fill = Ok e ->
  is_ok (to_json m) = true.
Proof.
  intros CM T S EF.
  destruct (create_fields CM) as [E1 [E2 [E3 [_ [_ [_ [E7 [E8 _]]]]]]]].
  destruct (defaults_write T S) as [_ [W1 [W2 W3]]]. rewrite <- E7 in *.
  assert (DN : dtype_to_n5 (md_dtype m) = Some dn) by now apply dtype_n5_iff.
  assert (DZ : exists dz, dtype_to_zarr (md_dtype m) = Some dz) by (destruct (md_dtype m); cbn; eauto).
  destruct DZ as [dz DZ].
  unfold to_json. rewrite E1, E2. destruct z; cbn [andb].
  - destruct (Z.eqb_spec fmt 3) as [->|N].
    + unfold to_json_v3. rewrite DN. cbn [eat bind]. rewrite E8.
      assert (FV : is_ok (fill_json_v3 (md_dtype m) fill) = true).
      { unfold fill_json_v3. destruct (_ || _); [reflexivity|]. unfold element_fill in EF.
        destruct (md_dtype m); cbn [dtype_range] in EF; try reflexivity;
          unfold dbl_to_int in *; destruct (dbl_trunc fill) as [t|]; try discriminate EF; cbn [bind] in EF;
          destruct (_ && _)%bool eqn:B in EF; try discriminate EF;
          match goal with |- context [if ?b then _ else _] => assert (X : b = true) by lia; rewrite X end; reflexivity. }
      apply is_ok_ex in FV. destruct FV as [fv ->]. cbn [bind].
      specialize (W3 eq_refl eq_refl (dtype_size (md_dtype m))). apply is_ok_ex in W3. destruct W3 as [c ->]. reflexivity.
    + unfold to_json_v2. specialize (W2 eq_refl). apply is_ok_ex in W2. destruct W2 as [c ->]. cbn [bind].
      rewrite DZ. reflexivity.
  - unfold to_json_n5. rewrite DN. cbn [eat bind].
    specialize (W1 eq_refl). apply is_ok_ex in W1. destruct W1 as [c ->]. reflexivity.
Qed.

Lemma created_object dn sh ch z cn op fill delim fmt enc shard m e h ka :
  create_metadata dn sh ch z cn op fill delim fmt enc shard = Ok m ->
  options_typed op -> codec_supported z fmt (md_comp m) ->
  element_fill (md_dtype m) fill = Ok e -> sh <> [] -> Forall (fun x => 0 < x) ch ->
  is_ok (make_dataset h ka m) = true.
Proof.
  intros CM T S EF NE CP.
  destruct (create_fields CM) as [E1 [E2 [E3 [E4 [E5 [_ [E7 [E8 [_ [_ [_ [E12 _]]]]]]]]]]]].
  destruct (defaults_write T S) as [W0 _]. rewrite <- E7 in *.
  unfold make_dataset. rewrite E4, E5, E8, EF.
  assert (B : is_ok (mk_blocking sh ch) = true).
  { unfold mk_blocking. destruct (N.eqb_spec (lenN sh) 0) as [X|_]; [destruct sh; [congruence|unfold lenN in X; simpl in X; lia]|].
    rewrite E12. destruct (N.ltb_spec (lenN ch) (lenN ch)); [lia|].
    destruct existsb eqn:X; [|reflexivity]. apply existsb_exists in X. destruct X as [x [I X]].
    assert (In x ch).
    { rewrite <- (firstn_skipn (length sh) ch). apply in_or_app. now left. }
    rewrite Forall_forall in CP. specialize (CP x H0). lia. }
  apply is_ok_ex in B. destruct B as [b ->]. cbn [bind].
  apply is_ok_ex in W0. destruct W0 as [c ->]. reflexivity.
Qed.

Theorem create_atomic root key dn sh ch cn op fill delim fmt enc shard s s' r :
  fs_ok s -> options_typed op ->
  (forall z c, is_zarr_group s (h_path root) = Ok z -> sfind cn string_to_compressor = Some c -> codec_supported z fmt c) ->
  (forall d, sfind dn n5_to_dtype = Some d -> exists e, element_fill d fill = Ok e) ->
  sh <> [] -> Forall (fun x => 0 < x) ch ->
  create_dataset root key dn sh ch cn op fill delim fmt enc shard s = (s', r) ->
  is_ok r = false -> s' = s.
Proof.
  intros F T S FI NE CP C R.
  assert (X := create_fails root key dn sh ch cn op fill delim fmt enc shard F). rewrite C in X.
  destruct (X R) as [E|[z [m [Z [CM [_ [_ Y]]]]]]]; [exact E|]. exfalso.
  destruct (create_fields CM) as [_ [_ [E3 [_ [_ [E6 _]]]]]].
  destruct (FI _ E3) as [e EF]. assert (SU := S _ _ Z E6).
  destruct Y as [[Y _]|[Y _]].
  - now rewrite (created_json CM T SU EF) in Y.
  - rewrite (created_object _ _ CM T SU EF NE CP) in Y. discriminate.
Qed.

(** The converse: such arguments are accepted if the node does not exist and
    nothing is in the way. *)
Theorem create_succeeds root key dn sh ch cn op fill delim fmt enc shard s z m :
  options_typed op -> is_zarr_group s (h_path root) = Ok z ->
  create_metadata dn sh ch z cn op fill delim fmt enc shard = Ok m ->
  codec_supported z fmt (md_comp m) -> (exists e, element_fill (md_dtype m) fill = Ok e) ->
  sh <> [] -> Forall (fun x => 0 < x) ch ->
  fs_ok s -> can_write (h_mode root) = true -> s (h_path root ++ key) = None -> way_free s (h_path root ++ key) ->
  exists s' o, create_dataset root key dn sh ch cn op fill delim fmt enc shard s = (s', Ok o).
Proof.
  intros T Z CM SU [e EF] NE CP F W A WF.
  unfold create_dataset, fbind at 1, freading. rewrite Z. unfold fbind at 1, fret. rewrite CM.
  set (p := h_path root ++ key) in *.
  unfold fs_create_dataset, fbind at 1, node_create. cbn [h_mode h_path].
  assert (M : is_mode_r (h_mode root) = false) by (destruct (h_mode root); [discriminate|..]; reflexivity).
  rewrite M. unfold fs_exists. rewrite A. rewrite mkdirs_run.
  2:{ intros q B. destruct (path_eqb q p) eqn:E; [apply path_eqb_eq in E; subst; now left|].
      apply WF; [assumption|]. intros ->. now rewrite path_eqb_refl in E. }
  assert (J := created_json CM T SU EF). apply is_ok_ex in J. destruct J as [j J].
  unfold fbind. rewrite (dataset_metadata_new (m := m) (j := j)); [|now rewrite below_refl| |assumption].
  2:{ intros a. rewrite below_doc. apply (fs_ok_absent F A). apply below_app. }
  assert (O := created_object (Handle p (h_mode root)) (KeyArgs delim fmt enc) CM T SU EF NE CP).
  apply is_ok_ex in O. destruct O as [o O]. unfold fret. rewrite O. eauto.
Qed.

(** * The created object is what was asked for *)

Lemma default_opt_find k v o q : sfind q (default_opt k v o) =
  if String.eqb k q then match sfind q o with Some w => Some w | None => Some v end else sfind q o.
Proof.
  unfold default_opt. destruct (sfind k o) as [w|] eqn:E.
  - destruct (String.eqb_spec k q) as [->|]; [now rewrite E|reflexivity].
  - assert (X : forall l, sfind q (sput k v l) =
      if String.eqb k q then Some v else sfind q l).
    { induction l as [|[k' v'] r IH]; simpl.
      - destruct (String.eqb_spec k q); reflexivity.
      - destruct (String.eqb_spec k' k) as [->|N1]; simpl.
        + now destruct (String.eqb_spec k q).
        + destruct (String.eqb_spec k' q) as [->|]; [|apply IH].
          destruct (String.eqb_spec k q); [congruence|reflexivity]. }
    rewrite X. destruct (String.eqb_spec k q) as [->|]; [now rewrite E|reflexivity].
Qed.

Lemma asked_codec_init cn c z op cfg : sfind cn string_to_compressor = Some c ->
  init_compressor c (default_options c z op) = Ok cfg -> asked_codec cn z op cfg.
Proof.
  intros N I.
  assert (NM : (match c with
    | C_raw => cn = "raw" | C_blosc => cn = "blosc" | C_zlib => cn = "zlib" \/ cn = "gzip"
    | C_bzip2 => cn = "bzip2" | C_lz4 => cn = "lz4" | C_xz => cn = "xz" | C_zstd => cn = "zstd" end)%string).
  { cbn [sfind string_to_compressor] in N.
    repeat match type of N with (if String.eqb ?a cn then _ else _) = _ =>
      destruct (String.eqb_spec a cn) as [<-|_]; [inversion N; subst c; auto|] end. discriminate. }
  clear N. destruct c; cbn [init_compressor] in I; unfold opt_int, opt_str, opt_bool, sat in I;
    cbn [default_options] in I; rewrite ?default_opt_find in I; simpl in I;
    unfold asked_codec, asked_int;
    repeat match type of I with context [sfind ?k op] => destruct (sfind k op) as [[]|] eqn:?; simpl in I end;
    inversion I; subst; repeat split; auto.
Qed.

Theorem created_as_asked root key dn sh ch cn op fill delim fmt enc shard s s' o z : fs_ok s ->
  is_zarr_group s (h_path root) = Ok z ->
  create_dataset root key dn sh ch cn op fill delim fmt enc shard s = (s', Ok o) ->
  as_asked root key z dn sh ch cn op fill delim fmt enc shard o.
Proof.
  intros F Z C. apply create_inv in C; [|assumption].
  destruct C as [z' [m [j [Z' [CM [CR _]]]]]]. rewrite Z in Z'. inversion Z'; subst z'.
  destruct (create_fields CM) as [E1 [E2 [E3 [E4 [E5 [E6 [E7 [E8 [E9 [E10 [E11 [_ E13]]]]]]]]]]]].
  assert (X := cr_made CR). unfold make_dataset in X.
  destruct mk_blocking; [|discriminate|discriminate].
  destruct element_fill as [f| |] eqn:EF; [|discriminate|discriminate].
  destruct init_compressor as [c| |] eqn:EC; [|discriminate|discriminate]. cbn [bind] in X.
  assert (D : asked_dtype dn (md_dtype m)).
  { clear -E3. cbn [sfind n5_to_dtype] in E3.
    repeat match type of E3 with (if String.eqb ?a dn then _ else _) = _ =>
      destruct (String.eqb_spec a dn) as [<-|_]; [inversion E3 as [X]; reflexivity|] end. discriminate. }
  assert (S : (match md_dtype m with DT_complex64 | DT_complex128 | DT_complex256 => [] | _ => md_shard m end) = shard).
  { rewrite E11. destruct (md_dtype m); try reflexivity; elim D. }
  assert (S2 : (if match md_dtype m with DT_complex64 | DT_complex128 | DT_complex256 => true | _ => false end
                then [] else md_shard m) = shard) by (destruct (md_dtype m); exact S).
  rewrite S2 in X. rewrite E7 in EC. rewrite E8 in EF. inversion X; subst o; clear X.
  split; cbn [op_path op_mode op_dtype op_shape op_chunks op_shard op_fill op_keys op_codec h_path h_mode ka_delim ka_format ka_enc];
    try congruence; try assumption.
  - rewrite E1, E9, E2, E10. destruct shard; [reflexivity|]. destruct E13 as [-> _]; [discriminate|]. reflexivity.
  - exact (asked_codec_init E6 EC).
Qed.
