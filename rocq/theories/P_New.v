(** Proofs about what a node just made holds. *)
From Coq Require Import ZArith String.
From Verif Require Import M_Base M_Json M_Mode M_Key M_Metadata M_Fs M_Attributes M_Container M_PyGroup S_Container S_New
  P_Attributes P_Container P_Container2 P_Container3.
Import ListNotations.
Local Open Scope list_scope.
Local Open Scope N_scope.

Lemma fresh_below s s' p name j x r : fresh_container s s' p name j ->
  s' (p ++ x :: r) = if path_eqb (p ++ x :: r) (p ++ [name]) then Some (NDoc j) else None.
Proof.
  intros F. rewrite F. assert (B : below (p ++ x :: r) p = false).
  { apply below_antisym'; [apply below_app|]. intros E.
    assert (X : p ++ [] = p ++ x :: r) by now rewrite app_nil_r. apply app_inv_head in X. discriminate. }
  rewrite B, below_app. reflexivity.
Qed.

Lemma fresh_entry s s' p name j a : fresh_container s s' p name j ->
  s' (p ++ [a]) = if String.eqb a name then Some (NDoc j) else None.
Proof.
  intros F. rewrite (fresh_below _ _ F). destruct (String.eqb_spec a name) as [->|N]; [now rewrite path_eqb_refl|].
  rewrite path_eqb_ne; [reflexivity|]. intros E. apply app_inv_head in E. congruence.
Qed.

Lemma fresh_bare s s' p name j : fresh_container s s' p name j -> bare s' p.
Proof.
  intros F. split; [now rewrite F, below_refl|]. exists name. intros x r n. rewrite (fresh_below _ _ F).
  destruct path_eqb eqn:E; [|discriminate]. apply path_eqb_eq, app_inv_head in E.
  intros H. inversion H. inversion E. subst. eauto.
Qed.

Lemma create_file_inv h z fmt s s' : fs_ok s -> create_file h z fmt s = (s', Ok tt) ->
  fresh_container s s' (h_path h) (fst (new_doc z fmt)) (snd (new_doc z fmt)).
Proof.
  intros F C. assert (M : can_create (h_mode h) = true /\ s (h_path h) = None /\
    existsb (fun q => fs_exists s q && negb (fs_isdir s q)) (prefixes (h_path h)) = false).
  { revert C. unfold create_file, fbind, file_create. destruct can_create; [|discriminate]. cbn [negb].
    unfold fs_exists at 1. destruct (s (h_path h)); [discriminate|]. unfold fs_mkdirs.
    destruct existsb; [discriminate|]. auto. }
  destruct M as [M [A X]].
  rewrite create_file_new in C.
  - inversion C. intros q. pose proof (@fresh_made s s (h_path h) (fst (new_doc z fmt)) (snd (new_doc z fmt))) as Y.
    refine (Y _ q). intros r. destruct (below (h_path h) r) eqn:B; [|reflexivity]. now apply (fs_ok_absent F A).
  - exact M.
  - intros q B. now apply (fs_ok_absent F A).
  - intros q B N. destruct (s q) as [n|] eqn:E; [|now left]. right.
    assert (existsb (fun q => fs_exists s q && negb (fs_isdir s q)) (prefixes (h_path h)) = true -> False) by congruence.
    destruct n as [| |]; [reflexivity| |]; elim H; apply existsb_exists; exists q;
      (split; [now apply prefixes_below|]); unfold fs_exists, fs_isdir; now rewrite E.
Qed.

Lemma file_attributes s s' p z fmt : fresh_container s s' p (fst (new_doc z fmt)) (snd (new_doc z fmt)) ->
  exists j, read_attributes HFile s' p = Ok j /\
    if z then no_attributes j else j = JObj [("n5", JStr "2.0.0")]%string.
Proof.
  intros F. assert (D : s' p = Some NDir) by now rewrite F, below_refl.
  unfold read_attributes, handle_is_zarr, is_zarr_group, gen_read_attributes, read_v3_attributes, read_doc_or, read_doc,
    attributes_name, fs_exists.
  pose proof (fun a => fresh_entry a F) as N. unfold new_doc in N. rewrite D, !N. clear F.
  destruct z; [destruct (fmt =? 3)%Z|]; cbn in N |- *; rewrite ?N; cbn.
  - eexists. split; [reflexivity|]. now right.
  - eexists. split; [reflexivity|]. now left.
  - eexists. split; reflexivity.
Qed.

Lemma group_attributes s s' p z fmt : group_made s s' p z fmt ->
  exists j, read_attributes HGroup s' p = Ok j /\ no_attributes j.
Proof.
  intros G. assert (D := gm_dirs G (below_refl p)).
  unfold read_attributes, handle_is_zarr, is_zarr_group, gen_read_attributes, read_v3_attributes, read_doc_or, read_doc,
    attributes_name, fs_exists. rewrite D. cbn [negb bind].
  destruct z.
  - assert (E := gm_doc G eq_refl). unfold new_doc in E.
    assert (N : forall a, a <> fst (new_doc true fmt) -> s' (p ++ [a]) = None).
    { intros a X. apply (gm_empty G). intros [_ Y]. inversion Y. congruence. }
    unfold new_doc in N. destruct (fmt =? 3)%Z; cbn [fst snd] in E, N.
    + rewrite !E, (N ".zgroup"%string) by discriminate. cbn. rewrite ?E. eexists. split; [reflexivity|now right].
    + rewrite E, (N "zarr.json"%string) by discriminate. cbn. rewrite (N ".zattrs"%string) by discriminate. eexists. split; [reflexivity|now left].
  - assert (N : forall a, s' (p ++ [a]) = None). { intros a. apply (gm_empty G). intros [Y _]. discriminate. }
    rewrite !N. cbn. rewrite ?N. eexists. split; [reflexivity|now left].
Qed.

Lemma group_bare s s' p z fmt : group_made s s' p z fmt -> bare s' p.
Proof.
  intros G. split; [apply (gm_dirs G (below_refl p))|]. exists (fst (new_doc z fmt)). intros x r n E.
  destruct z.
  - destruct (list_eq_dec string_dec (x :: r) [fst (new_doc true fmt)]) as [X|X].
    + rewrite X, (gm_doc G Logic.eq_refl) in E. inversion E. apply (f_equal (@rev string)) in X.
      split; [|split; [|eauto]]; destruct r as [|y r]; try reflexivity; try (now inversion X);
        apply (f_equal (@length string)) in X; rewrite !rev_length in X; discriminate.
    + rewrite (gm_empty G) in E; [discriminate|]. tauto.
  - rewrite (gm_empty G) in E; [discriminate|]. intros [Y _]. discriminate.
Qed.

Lemma dataset_attributes s s' h ka m o j : created s s' h ka m o j ->
  exists a, read_attributes HDataset s' (h_path h) = Ok a /\ no_attributes a.
Proof.
  intros [_ _ J _ F]. assert (D : s' (h_path h) = Some NDir) by now rewrite F, below_refl.
  unfold read_attributes, handle_is_zarr, is_zarr_dataset, gen_read_attributes, read_v3_attributes, read_doc_or, read_doc,
    attributes_name, fs_exists.
  pose proof (fun a => fresh_entry a F) as N. unfold to_json in J. unfold md_doc in N. rewrite D, !N. clear F.
  destruct (md_zarr m); cbn [andb] in J; [destruct (md_format m =? 3)%Z|]; cbn in N |- *; rewrite ?N; cbn.
  - revert J. unfold to_json_v3. destruct (eat _); [|discriminate|discriminate].
    destruct fill_json_v3; [|discriminate|discriminate].
    destruct write_v3_codecs; [|discriminate|discriminate]. cbn [bind]. intros H. inversion H.
    eexists. split; [reflexivity|now right].
  - eexists. split; [reflexivity|now left].
  - destruct (n5_json_keys J) as [a [b [c [d ->]]]]. eexists. split; [reflexivity|now right].
Qed.

Lemma drop_inv A (f : fact A) s s' : drop f s = (s', Ok tt) -> exists a, f s = (s', Ok a).
Proof. unfold drop, fbind, fret. destruct (f s) as [s1 [a| |]]; [|discriminate|discriminate]. intros H. inversion H. eauto. Qed.

Theorem new_attributes m c k p s s' : fs_ok s -> new_node c = Some (k, p) -> run_ccall m c s = (s', Ok tt) ->
  bare s' p /\
  exists j, read_attributes k s' p = Ok j /\
    match c with
    | CCreateFile _ false _ => j = JObj [("n5", JStr "2.0.0")]%string
    | _ => no_attributes j
    end.
Proof.
  intros F N C. destruct c; inversion N; subst; cbn [run_ccall] in C.
  - apply create_file_inv in C; [|exact F]. cbn [h_path] in C. split; [apply (fresh_bare C)|].
    destruct (file_attributes C) as [j [E X]]. exists j. split; [exact E|]. now destruct is_zarr.
  - destruct (create_group_made F C) as [z [_ [_ G]]]. cbn [h_path] in G. split; [apply (group_bare G)|].
    apply (group_attributes G).
  - apply drop_inv in C. destruct C as [o C]. unfold create_dataset_md in C. apply fs_create_inv in C; [|exact F].
    destruct C as [j C]. split; [apply (fresh_bare (cr_fs C))|]. apply (dataset_attributes C).
  - apply drop_inv in C. destruct C as [oo C]. apply create_inv in C; [|exact F].
    destruct C as [z [mm [j [_ [_ [C _]]]]]]. split; [apply (fresh_bare (cr_fs C))|]. apply (dataset_attributes C).
Qed.

Theorem new_after m m' cs c k p s s' : fs_ok s -> Forall (fun c => forall p, c = CRemove p -> p <> []) cs ->
  new_node c = Some (k, p) -> run_ccall m' c (snd (run_ccalls m cs s)) = (s', Ok tt) ->
  bare s' p /\
  exists j, read_attributes k s' p = Ok j /\
    match c with
    | CCreateFile _ false _ => j = JObj [("n5", JStr "2.0.0")]%string
    | _ => no_attributes j
    end.
Proof. intros F R. apply new_attributes. now apply ccalls_tree. Qed.

Lemma bare_members s p key m : bare s p -> key <> [] -> group_in s (Handle p m) key = false.
Proof.
  intros [_ [name B]] K. destruct key as [|x r]; [congruence|]. unfold group_in, fs_isdir. cbn [h_path].
  destruct (s (p ++ x :: r)) as [n|] eqn:E; [|reflexivity]. destruct (B _ _ _ E) as [_ [_ [j ->]]]. reflexivity.
Qed.

Theorem new_names m m' cs c k p s s' : fs_ok s -> Forall (fun c => forall p, c = CRemove p -> p <> []) cs ->
  new_node c = Some (k, p) -> run_ccall m' c (snd (run_ccalls m cs s)) = (s', Ok tt) ->
  py_attr_keys s' (AttrManager k m' p) =
    Ok (match c with CCreateFile _ false _ => ["n5"]%string | _ => [] end).
Proof.
  intros F R N C. destruct (proj2 (@new_after m m' cs c k p s s' F R N C)) as [j [E X]].
  unfold py_attr_keys, py_attrs. cbn [am_kind am_path]. rewrite E. cbn [bind].
  destruct c; try (destruct X as [->| ->]; reflexivity). destruct is_zarr; [destruct X as [->| ->]; reflexivity|now subst].
Qed.
