(** Every call on a container keeps the file system a tree, and concerns one node
    only. *)
From Coq Require Import ZArith String.
From Verif Require Import M_Base P_Base M_Double M_Json M_Mode M_Key M_Blocking M_Metadata S_Metadata P_Metadata
  M_Fs M_Attributes S_Attributes P_Attributes M_Container S_Container M_Format M_Bytes M_Dataset P_Container P_Container2.
Import ListNotations.
Local Open Scope list_scope.
Local Open Scope N_scope.

Ltac doc_name := unfold reserved_names, attributes_name; repeat match goal with |- context [if ?b then _ else _] => destruct b end; cbn [In]; tauto.

(** [sat s s'] holds between the file system before and after. *)
Section Frame.
  Variable R : fsys -> fsys -> Prop.
  Hypothesis R_refl : forall s, R s s.
  Hypothesis R_trans : forall s1 s2 s3, R s1 s2 -> R s2 s3 -> R s1 s3.

  Definition framed {A} (m : fact A) : Prop := forall s, R s (fst (m s)).

  Lemma framed_ret A (o : outcome A) : framed (fret o).
  Proof. intros s. apply R_refl. Qed.
  Lemma framed_reading A (f : fsys -> outcome A) : framed (freading f).
  Proof. intros s. apply R_refl. Qed.
  Lemma framed_bind A B (m : fact A) (f : A -> fact B) : framed m -> (forall a, framed (f a)) -> framed (fbind m f).
  Proof.
    intros M F s. unfold fbind. specialize (M s). destruct (m s) as [s1 [a| |]]; cbn in *; auto.
    eapply R_trans; [exact M|]. apply F.
  Qed.
  Lemma framed_if A (b : bool) (m n : fact A) : framed m -> framed n -> framed (if b then m else n).
  Proof. now destruct b. Qed.

  Variable p : path.
  Hypothesis W : forall name j, In name reserved_names -> framed (write_doc p name j).

  Lemma framed_attr k m c : framed (run_aop k m p c).
  Proof.
    destruct c as [j|a]; cbn [run_aop].
    - unfold write_attributes. apply framed_if; [apply framed_ret|].
      apply framed_bind; [apply framed_reading|]. intros z. apply framed_bind; [apply framed_ret|]. intros _.
      intros s. unfold gen_write_attributes. destruct (_ && _).
      + apply framed_bind; [apply framed_reading|]. intros f. apply framed_bind; [apply framed_ret|]. intros a.
        apply framed_bind; [apply framed_ret|]. intros f'. apply W; doc_name.
      + apply framed_bind; [apply framed_reading|]. intros f. apply framed_bind; [apply framed_ret|]. intros a. apply W; doc_name.
    - unfold remove_attribute. apply framed_if; [apply framed_ret|].
      apply framed_bind; [apply framed_reading|]. intros z. apply framed_bind; [apply framed_ret|]. intros _.
      intros s. unfold gen_remove_attribute. destruct (_ && _).
      + apply framed_bind; [apply framed_reading|]. intros [f|]; [|apply framed_ret].
        apply framed_bind; [apply framed_ret|]. intros ?. apply W; doc_name.
      + apply framed_bind; [apply framed_reading|]. intros [f|]; [|apply framed_ret].
        apply framed_bind; [apply framed_ret|]. intros ?. apply W; doc_name.
  Qed.

  Lemma framed_v3_group : framed (write_v3_group p).
  Proof.
    unfold write_v3_group. repeat (apply framed_bind; [first [apply framed_reading|apply framed_ret]|]; intros ?).
    apply W; doc_name.
  Qed.
  Lemma framed_file_md z fmt : framed (write_file_metadata p z fmt).
  Proof.
    unfold write_file_metadata. apply framed_if; [apply framed_v3_group|]. apply framed_if; [apply W; doc_name|].
    repeat (apply framed_bind; [first [apply framed_reading|apply framed_ret]|]; intros ?). apply W; doc_name.
  Qed.
  Lemma framed_group_md z fmt : framed (write_group_metadata p z fmt).
  Proof.
    unfold write_group_metadata. apply framed_if; [apply framed_v3_group|]. apply framed_if; [apply W; doc_name|apply framed_ret].
  Qed.
  Lemma framed_ds_md m : framed (write_dataset_metadata p m).
  Proof.
    unfold write_dataset_metadata. apply framed_if;
    repeat (apply framed_bind; [first [apply framed_reading|apply framed_ret]|]; intros ?); apply W; doc_name.
  Qed.

  Hypothesis D : forall s, s p = None -> R s (fst (fs_mkdirs p s)).

  Lemma framed_node_create m : framed (node_create (Handle p m)).
  Proof.
    intros s. unfold node_create. cbn [h_mode h_path]. destruct is_mode_r; [apply R_refl|].
    unfold fs_exists. destruct (s p) eqn:E; [apply R_refl|]. now apply D.
  Qed.
  Lemma framed_file_create m : framed (file_create (Handle p m)).
  Proof.
    intros s. unfold file_create. cbn [h_mode h_path]. destruct (negb (can_create m)); [apply R_refl|].
    unfold fs_exists. destruct (s p) eqn:E; [apply R_refl|]. now apply D.
  Qed.
  Lemma framed_create m ka md : framed (fs_create_dataset (Handle p m) ka md).
  Proof.
    unfold fs_create_dataset. apply framed_bind; [apply framed_node_create|]. intros _.
    apply framed_bind; [apply framed_ds_md|]. intros _. apply framed_ret.
  Qed.

  Lemma framed_ccall m c : target c = p -> (c = CRemove p -> forall s, R s (fst (fs_remove_all p s))) ->
    framed (run_ccall m c).
  Proof.
    intros T X. destruct c; cbn [target run_ccall] in *; try subst p0.
    - apply (framed_attr k m (AWrite j)).
    - apply (framed_attr k m (ARemove a)).
    - intros s. unfold node_remove. cbn [h_mode h_path]. destruct negb; [apply R_refl|].
      destruct (negb (fs_exists s p)); [apply R_refl|]. now apply X.
    - apply framed_node_create.
    - unfold create_file. apply framed_bind; [apply framed_file_create|]. intros _. apply framed_file_md.
    - unfold create_group. cbn [h_path h_mode]. rewrite T. apply framed_bind; [apply framed_reading|]. intros z.
      apply framed_bind; [apply framed_node_create|]. intros _. apply framed_group_md.
    - unfold drop, create_dataset_md. cbn [h_path h_mode]. rewrite T.
      apply framed_bind; [apply framed_create|]. intros _. apply framed_ret.
    - unfold drop, create_dataset. cbn [h_path h_mode]. rewrite T.
      apply framed_bind; [|intros _; apply framed_ret].
      apply framed_bind; [apply framed_reading|]. intros z. apply framed_bind; [apply framed_ret|]. intros md.
      apply framed_create.
  Qed.
End Frame.

(** * The tree *)

Lemma write_doc_tree p name j s : fs_ok s -> fs_ok (fst (write_doc p name j s)).
Proof.
  intros F. unfold write_doc. destruct (fs_isdir s p && negb (fs_isdir s (p ++ [name]))) eqn:B; [|exact F].
  apply andb_true_iff in B. destruct B as [B1 B2].
  assert (E1 : s p = Some NDir) by (unfold fs_isdir in B1; destruct (s p) as [[| |]|]; congruence).
  assert (E2 : s (p ++ [name]) <> Some NDir) by (intros E; unfold fs_isdir in B2; now rewrite E in B2).
  cbn [fst]. split.
  - rewrite path_eqb_ne; [apply F|]. intros E. symmetry in E. apply app_eq_nil in E. destruct E; discriminate.
  - intros q a. destruct (path_eqb (q ++ [a]) (p ++ [name])) eqn:X.
    + intros _. apply path_eqb_eq in X. apply app_inj_tail in X. destruct X as [-> ->].
      rewrite path_eqb_ne; [exact E1|]. intros E. symmetry in E. now apply snoc_ne in E.
    + intros H. destruct (path_eqb q (p ++ [name])) eqn:Y; [|now apply (proj2 F q a)].
      apply path_eqb_eq in Y. subst. apply (proj2 F) in H. congruence.
Qed.

Theorem ccall_tree m c s : fs_ok s -> (forall p, c = CRemove p -> p <> []) -> fs_ok (fst (run_ccall m c s)).
Proof.
  intros F NR.
  apply (@framed_ccall (fun s s' => fs_ok s -> fs_ok s') (fun s f => f)
    (fun s1 s2 s3 a b f => b (a f)) (target c)); auto.
  - intros name j _ s0. apply write_doc_tree.
  - intros s0 _ F0. destruct (fs_mkdirs (target c) s0) as [s1 r] eqn:E.
    unfold fs_mkdirs in E. destruct existsb eqn:X; [inversion E; now subst|].
    apply (@mkdirs_ok s0 (target c) s1 F0). unfold fs_mkdirs. rewrite X. now inversion E.
  - intros E s0 F0. apply (@remove_fs_ok (target c) s0); [assumption|now apply NR|reflexivity].
Qed.

Theorem ccalls_tree m : forall cs s, fs_ok s -> Forall (fun c => forall p, c = CRemove p -> p <> []) cs ->
  fs_ok (snd (run_ccalls m cs s)).
Proof.
  induction cs as [|c cs IH]; intros s F H; [exact F|]. inversion H; subst. cbn [run_ccalls].
  assert (X := @ccall_tree m c s F H2). destruct (run_ccall m c s) as [s1 r]. cbn in X.
  specialize (IH s1 X H3). now destruct (run_ccalls m cs s1).
Qed.

(** * Isolation *)

Lemma outside_trans p s1 s2 s3 : outside_kept p s1 s2 -> outside_kept p s2 s3 -> outside_kept p s1 s3.
Proof.
  intros H1 H2 q B. destruct (H1 q B) as [E1|[E1 [E2 E3]]]; destruct (H2 q B) as [F1|[F1 [F2 F3]]].
  - left. congruence.
  - right. repeat split; congruence.
  - right. repeat split; congruence.
  - congruence.
Qed.

Theorem ccall_outside m c s : outside_kept (target c) s (fst (run_ccall m c s)).
Proof.
  apply (@framed_ccall (outside_kept (target c)) (fun s0 q B => or_introl eq_refl)
           (@outside_trans (target c)) (target c)); auto.
  - intros name j _ s0 q B. left. unfold write_doc. destruct (_ && _); [|reflexivity]. cbn [fst].
    rewrite path_eqb_ne; [reflexivity|]. intros ->. now rewrite below_app in B.
  - intros s0 _ q B. unfold fs_mkdirs. destruct existsb eqn:X; [now left|]. cbn [fst].
    destruct (below q (target c)) eqn:Y; [|now left].
    destruct (s0 q) as [[| |]|] eqn:E; [now left| | |now right].
    + exfalso. assert (Z : existsb (fun q => fs_exists s0 q && negb (fs_isdir s0 q)) (prefixes (target c)) = true).
      { apply existsb_exists. exists q. split; [now apply prefixes_below|]. unfold fs_exists, fs_isdir. now rewrite E. }
      congruence.
    + exfalso. assert (Z : existsb (fun q => fs_exists s0 q && negb (fs_isdir s0 q)) (prefixes (target c)) = true).
      { apply existsb_exists. exists q. split; [now apply prefixes_below|]. unfold fs_exists, fs_isdir. now rewrite E. }
      congruence.
  - intros _ s0 q B. left. unfold fs_remove_all. cbn [fst]. now rewrite B.
Qed.

(** * Siblings *)

Lemma sibling_kept root key key2 s s' : outside_kept (root ++ key2) s s' -> s root <> None ->
  key_free key2 -> below key key2 = false -> below key2 key = false ->
  (forall r, s' (root ++ key ++ r) = s (root ++ key ++ r)) /\
  s' root = s root /\ s' (root ++ [".zgroup"%string]) = s (root ++ [".zgroup"%string]) /\
  s' (root ++ ["zarr.json"%string]) = s (root ++ ["zarr.json"%string]).
Proof.
  intros H R K B1 B2.
  assert (X : forall r, below (key ++ r) key2 = false).
  { intros r. destruct (below (key ++ r) key2) eqn:E; [|reflexivity]. apply below_spec in E. destruct E as [t E].
    rewrite E, <- app_assoc, below_app in B1. discriminate. }
  assert (Y : forall r, below key2 (key ++ r) = false).
  { clear - B1 B2. revert key2 B1 B2. induction key as [|a key IH]; intros [|b k2] B1 B2 r; try discriminate.
    simpl in *. rewrite String.eqb_sym in B1. destruct (String.eqb b a); [|reflexivity]. simpl in *. now apply IH. }
  assert (D : forall a r q, key2 = a :: r -> q <> a -> s' (root ++ [q]) = s (root ++ [q])).
  { intros a r q -> N. destruct (H (root ++ [q])) as [E|[_ [_ E]]]; [|exact E|].
    - rewrite app_below. simpl. destruct (String.eqb_spec a q); [congruence|reflexivity].
    - rewrite app_below in E. simpl in E. destruct (String.eqb_spec q a); [congruence|discriminate]. }
  destruct key2 as [|a key2]; [elim K|]. destruct K as [K1 K2].
  repeat split.
  - intros r. destruct (H (root ++ key ++ r)) as [E|[_ [_ E]]]; [|exact E|].
    + rewrite app_below. apply Y.
    + rewrite app_below, X in E. discriminate.
  - destruct (H root) as [E|[E _]]; [|exact E|congruence].
    apply below_antisym'; [apply below_app|]. intros E.
    assert (Z : root ++ [] = root ++ a :: key2) by now rewrite app_nil_r. apply app_inv_head in Z. discriminate.
  - apply (D a key2); [reflexivity|congruence].
  - apply (D a key2); [reflexivity|congruence].
Qed.

(** What opening looks at. *)
Lemma open_depends s s' root key :
  (forall r, s' (h_path root ++ key ++ r) = s (h_path root ++ key ++ r)) ->
  s' (h_path root) = s (h_path root) ->
  s' (h_path root ++ [".zgroup"%string]) = s (h_path root ++ [".zgroup"%string]) ->
  s' (h_path root ++ ["zarr.json"%string]) = s (h_path root ++ ["zarr.json"%string]) ->
  open_dataset s' root key = open_dataset s root key.
Proof.
  intros H R1 R2 R3.
  assert (Z : is_zarr_group s' (h_path root) = is_zarr_group s (h_path root)).
  { unfold is_zarr_group, fs_exists. now rewrite R1, R2, R3. }
  assert (P : forall a, s' ((h_path root ++ key) ++ [a]) = s ((h_path root ++ key) ++ [a])).
  { intros a. rewrite <- app_assoc. apply H. }
  assert (P0 : s' (h_path root ++ key) = s (h_path root ++ key)).
  { specialize (H []). now rewrite app_nil_r in H. }
  unfold open_dataset. rewrite Z.
  assert (C : chunk_config s' (h_path root ++ key) = chunk_config s (h_path root ++ key)).
  { unfold chunk_config, parse_doc, fs_exists. now rewrite !P. }
  rewrite C.
  assert (FO : forall ka, fs_open_dataset s' (Handle (h_path root ++ key) (h_mode root)) ka =
                          fs_open_dataset s (Handle (h_path root ++ key) (h_mode root)) ka).
  { intros ka. unfold fs_open_dataset, read_dataset_metadata, metadata_doc, parse_doc. cbn [h_path].
    unfold fs_exists. rewrite P0, !P.
    destruct (negb _); [reflexivity|]. destruct (_ && _); [reflexivity|]. destruct (_ && _); [reflexivity|].
    cbn [bind]. now rewrite P. }
  destruct (is_zarr_group s (h_path root)) as [z| |]; try reflexivity. cbn [bind].
  destruct z; [destruct (chunk_config s (h_path root ++ key)); try reflexivity|]; cbn [bind]; apply FO.
Qed.

Lemma attrs_depend k s s' p :
  (forall r, s' (p ++ r) = s (p ++ r)) -> read_attributes k s' p = read_attributes k s p.
Proof.
  intros H. assert (P0 : s' p = s p) by (specialize (H []); now rewrite app_nil_r in H).
  assert (Z : handle_is_zarr k s' p = handle_is_zarr k s p).
  { destruct k; cbn [handle_is_zarr]; unfold is_zarr_group, is_zarr_dataset, fs_exists; now rewrite P0, !H. }
  unfold read_attributes. rewrite Z. destruct (handle_is_zarr k s p) as [z| |]; try reflexivity. cbn [bind].
  assert (G : gen_read_attributes s' p z JNull = gen_read_attributes s p z JNull).
  { unfold gen_read_attributes, read_v3_attributes, read_doc_or, read_doc, fs_exists. now rewrite !H. }
  now rewrite G.
Qed.

Theorem siblings root key m : forall cs s, s (h_path root) <> None ->
  Forall (sibling_call (h_path root) key) cs ->
  let s' := snd (run_ccalls m cs s) in
  open_dataset s' root key = open_dataset s root key /\
  (forall k, read_attributes k s' (h_path root ++ key) = read_attributes k s (h_path root ++ key)) /\
  (forall r, s' (h_path root ++ key ++ r) = s (h_path root ++ key ++ r)).
Proof.
  induction cs as [|c cs IH]; intros s R H; cbn [run_ccalls].
  - cbn. auto.
  - inversion H as [|? ? [key2 [T [K [B1 B2]]]] H2]; subst.
    assert (O := @ccall_outside m c s). rewrite T in O.
    destruct (run_ccall m c s) as [s1 r]. cbn [fst] in O.
    destruct (@sibling_kept (h_path root) key key2 s s1 O R K B1 B2) as [E1 [E2 [E3 E4]]].
    assert (R1 : s1 (h_path root) <> None) by congruence.
    specialize (IH s1 R1 H2). destruct (run_ccalls m cs s1) as [os s2]. cbn [snd] in *.
    destruct IH as [I1 [I2 I3]]. split; [|split].
    + rewrite I1. now apply open_depends.
    + intros k. rewrite I2. apply attrs_depend. intros r0. rewrite <- app_assoc. apply E1.
    + intros r0. rewrite I3. apply E1.
Qed.

(** * Nested creation in n5 containers *)

Theorem n5_nested_groups root k1 k2 fmt s s' : fs_ok s -> key_free k1 -> k2 <> [] ->
  (forall r, k2 <> "attributes.json"%string :: r) ->
  is_zarr_group s (h_path root) = Ok false -> s (h_path root ++ k1) = None ->
  create_group root (k1 ++ k2) fmt s = (s', Ok tt) ->
  is_sub_group s' (h_path root) k1 = Ok true.
Proof.
  intros F K1 K2 K3 Z A C. pose proof (create_group_made F C) as [z [Z' [_ G]]].
  rewrite Z in Z'. inversion Z'; subst z.
  assert (KF : key_free (k1 ++ k2)) by (destruct k1; [destruct K1|exact K1]).
  assert (R : is_zarr_group s' (h_path root) = Ok false).
  { rewrite <- Z. apply (@root_kept s s' (h_path root) (k1 ++ k2)); [now apply (@zarr_root_exists s _ false)|exact KF| |].
    - apply (gm_dirs G).
    - apply (gm_frame G). }
  assert (D : s' (h_path root ++ k1) = Some NDir).
  { apply (gm_dirs G). rewrite app_below. rewrite <- (app_nil_r k1) at 1. now rewrite app_below. }
  assert (N : s' ((h_path root ++ k1) ++ ["attributes.json"%string]) = None).
  { assert (B1 : below ["attributes.json"%string] k2 = false).
    { destruct k2 as [|b k2]; [reflexivity|]. cbn [below]. destruct (String.eqb_spec "attributes.json" b) as [X|]; [|reflexivity].
      exfalso. apply (K3 k2). now rewrite X. }
    assert (B2 : below k2 ["attributes.json"%string] = false).
    { destruct k2 as [|b k2]; [easy|]. cbn [below]. destruct (String.eqb_spec b "attributes.json") as [X|]; [|reflexivity].
      exfalso. apply (K3 k2). now rewrite X. }
    rewrite (gm_frame G).
    - apply (@fs_ok_absent s (h_path root ++ k1)); [assumption..|].
      rewrite <- (app_nil_r (h_path root ++ k1)) at 1. now rewrite app_below.
    - rewrite <- app_assoc, !app_below. exact B1.
    - rewrite <- app_assoc, !app_below. exact B2. }
  unfold is_sub_group. rewrite R. cbn [bind]. unfold fs_exists at 1. rewrite D. cbn [negb].
  unfold read_doc. rewrite N. reflexivity.
Qed.

(** createDataset with the metadata for the same arguments. *)
Lemma create_md_same root key dn sh ch cn op fill delim fmt enc shard s z m :
  is_zarr_group s (h_path root) = Ok z ->
  create_metadata dn sh ch z cn op fill delim fmt enc shard = Ok m ->
  create_dataset_md root key m s = create_dataset root key dn sh ch cn op fill delim fmt enc shard s.
Proof.
  intros Hz Hm. unfold create_dataset, create_dataset_md, fbind at 1, freading at 1. rewrite Hz.
  unfold fbind at 1, fret at 1. rewrite Hm.
  assert (K : KeyArgs (md_delim m) (md_format m) (md_enc m) = KeyArgs delim fmt enc); [|now rewrite K].
  unfold create_metadata in Hm.
  destruct (or_runtime (sat dn n5_to_dtype)); try discriminate. cbn [bind] in Hm.
  destruct (or_runtime (sat cn string_to_compressor)); try discriminate. cbn [bind] in Hm.
  match type of Hm with bind ?x _ = _ => destruct x; try discriminate end. cbn [bind] in Hm.
  unfold check_shapes in Hm. destruct (lenN _ =? lenN _); [|discriminate]. now injection Hm as <-.
Qed.
