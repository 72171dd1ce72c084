(** Proofs about containers. *)
From Coq Require Import ZArith String.
From Verif Require Import M_Base P_Base M_Double M_Json M_Mode M_Key M_Blocking M_Metadata S_Metadata P_Metadata
  M_Fs M_Attributes S_Attributes P_Attributes M_Container S_Container M_Format M_Bytes M_Dataset.
Import ListNotations.
Local Open Scope list_scope.
Local Open Scope N_scope.

(** * Attributes and dataset metadata *)

Lemma jidx_ext a d d' : (exists l, d = JObj l) -> (exists l, d' = JObj l) -> jfind a d' = jfind a d ->
  jidx a d' = jidx a d.
Proof. intros [l ->] [l' ->]. simpl. now intros ->. Qed.
Lemma jat_ext a d d' : (exists l, d = JObj l) -> (exists l, d' = JObj l) -> jfind a d' = jfind a d ->
  jat a d' = jat a d.
Proof. intros [l ->] [l' ->]. simpl. now intros ->. Qed.

Lemma from_json_n5_ext d d' : (exists l, d = JObj l) -> (exists l, d' = JObj l) ->
  (forall a, In a (protected HDataset false) -> jfind a d' = jfind a d) ->
  from_json d' false = from_json d false.
Proof.
  intros L L' H. unfold from_json, from_json_n5.
  rewrite (@jidx_ext "dataType" d d'), (@jidx_ext "dimensions" d d'), (@jidx_ext "blockSize" d d'),
    (H "compression"%string), (H "compressionType"%string); auto;
    try apply H; simpl; tauto.
Qed.

Lemma from_json_zarr_ext d d' : (exists l, d = JObj l) -> (exists l, d' = JObj l) ->
  (forall a, a <> "attributes"%string -> jfind a d' = jfind a d) ->
  from_json d' true = from_json d true.
Proof.
  intros L L' H. unfold from_json, from_json_v3, from_json_v2, check_json.
  rewrite !(H "zarr_format"%string), !(H "order"%string), !(H "filters"%string),
    !(H "dimension_separator"%string) by discriminate.
  rewrite (@jat_ext "node_type" d d'), (@jat_ext "data_type" d d'), (@jat_ext "shape" d d'),
    (@jat_ext "chunk_grid" d d'), (@jat_ext "chunk_key_encoding" d d'), (@jat_ext "fill_value" d d'),
    (@jat_ext "codecs" d d'); auto; try (apply H; discriminate).
  rewrite (@jidx_ext "dtype" d d'), (@jidx_ext "shape" d d'),
    (@jidx_ext "chunks" d d'), (@jidx_ext "fill_value" d d'), (@jidx_ext "compressor" d d');
    auto; apply H; discriminate.
Qed.

Lemma parse_other s s' p f g : (forall q, q <> p ++ [f] -> s' q = s q) -> g <> f ->
  parse_doc s' p g = parse_doc s p g.
Proof.
  intros Q N. unfold parse_doc. rewrite Q; [reflexivity|]. intros E. apply app_inv_head in E. congruence.
Qed.

Lemma exists_other s s' p f g : (forall q, q <> p ++ [f] -> s' q = s q) -> g <> f ->
  fs_exists s' (p ++ [g]) = fs_exists s (p ++ [g]).
Proof.
  intros Q N. unfold fs_exists. rewrite Q; [reflexivity|]. intros E. apply app_inv_head in E. congruence.
Qed.

(** No history of attribute calls through the dataset handle changes the metadata
    an opened dataset is made from. *)
Theorem attributes_keep_metadata m p v z ops s :
  can_write m = true -> attr_node HDataset s p v z -> Forall aop_ok ops ->
  read_dataset_metadata (snd (api_run HDataset m p ops s)) p = read_dataset_metadata s p.
Proof.
  intros W A F.
  destruct (@api_run_ok HDataset m p v z W ops s A F) as [A2 [Q [V [_ L]]]].
  set (s' := snd (api_run HDataset m p ops s)) in *.
  pose proof (an_doc A) as O. pose proof (an_doc A2) as O2.
  pose proof (an_zarr A) as Z. pose proof (an_v3 A) as V0. pose proof (an_v3 A2) as V2.
  unfold handle_is_zarr, is_zarr_dataset in Z.
  assert (EX : fs_exists s p = true) by (unfold fs_exists; now rewrite (an_dir A)).
  rewrite EX in Z. cbn [negb] in Z. inversion Z as [ZZ]. clear Z.
  unfold read_dataset_metadata, metadata_doc.
  destruct v.
  - (* zarr v3 *)
    assert (Qz : fs_exists s' (p ++ [".zarray"%string]) = fs_exists s (p ++ [".zarray"%string]))
      by (eapply exists_other; [exact Q|discriminate]).
    assert (Qn : fs_exists s' (p ++ ["attributes.json"%string]) = fs_exists s (p ++ ["attributes.json"%string]))
      by (eapply exists_other; [exact Q|discriminate]).
    symmetry in V0. apply andb_true_iff in V0. destruct V0 as [-> E1].
    symmetry in V2. apply andb_true_iff in V2. destruct V2 as [_ E2].
    rewrite Qz, Qn, E1, E2. rewrite orb_true_r. cbn [andb negb].
    destruct (fs_exists s (p ++ ["attributes.json"%string])); [reflexivity|].
    rewrite andb_false_r. cbn [andb bind].
    specialize (V eq_refl). unfold doc_frame in V.
    change (attr_file true true) with "zarr.json"%string in *. unfold parse_doc.
    destruct (s (p ++ ["zarr.json"%string])) as [[|[| | | | | | |d]|]|]; simpl in O; try destruct O as [? ?]; try contradiction; try discriminate.
    destruct (s' (p ++ ["zarr.json"%string])) as [[|[| | | | | | |d']|]|]; simpl in O2; try destruct O2 as [? ?]; try contradiction; try discriminate.
    cbn [bind]. apply from_json_zarr_ext; eauto.
  - destruct z.
    + (* zarr v2: only .zattrs changes *)
      change (attr_file false true) with ".zattrs"%string in *.
      rewrite !(@exists_other s s' p ".zattrs"%string) by (exact Q || discriminate).
      destruct ((_ || _) && _); [reflexivity|]. destruct (_ && _ && _); [reflexivity|].
      cbn [bind]. erewrite parse_other; [reflexivity|exact Q|].
      destruct (fs_exists s (p ++ ["zarr.json"%string])); [discriminate|].
      destruct (fs_exists s (p ++ [".zarray"%string])); discriminate.
    + (* n5 *)
      change (attr_file false false) with "attributes.json"%string in *.
      rewrite !(@exists_other s s' p "attributes.json"%string ".zarray"%string),
              !(@exists_other s s' p "attributes.json"%string "zarr.json"%string) by (exact Q || discriminate).
      apply orb_false_iff in ZZ. destruct ZZ as [-> ->]. cbn [orb andb negb].
      destruct (s (p ++ ["attributes.json"%string])) as [[|[| | | | | | |d]|]|] eqn:F1; simpl in O; try destruct O as [? ?]; try contradiction;
        try (discriminate (H0 eq_refl)); try discriminate.
      destruct (s' (p ++ ["attributes.json"%string])) as [[|[| | | | | | |d']|]|] eqn:F2; simpl in O2; try destruct O2 as [? ?]; try contradiction;
        try (discriminate (H2 eq_refl)); try discriminate.
      unfold fs_exists. rewrite F1, F2. cbn [negb bind]. unfold parse_doc. rewrite F1, F2. cbn [bind].
      apply from_json_n5_ext; eauto. intros a I. cbn [held] in L. simpl. rewrite L.
      now apply table_run_prot.
Qed.

(** * Creating directories *)

Lemma prefixes_below p : forall q, In q (prefixes p) <-> below q p = true.
Proof.
  induction p as [|a p IH]; intros q; simpl.
  - split; [intros [<-|[]]; reflexivity|]. destruct q; [tauto|discriminate].
  - split.
    + intros [<-|H]; [reflexivity|]. apply in_map_iff in H. destruct H as [r [<- H]].
      simpl. rewrite String.eqb_refl. now apply IH.
    + destruct q as [|b q]; [now left|]. simpl. intros H. apply andb_true_iff in H.
      destruct H as [H1 H2]. apply String.eqb_eq in H1. subst. right. apply in_map. now apply IH.
Qed.

Lemma fs_ok_below s p q : fs_ok s -> s (p ++ q) <> None -> q <> [] -> s p = Some NDir.
Proof.
  intros [_ F]. revert p. induction q as [|b q IH] using rev_ind; intros p H N; [congruence|].
  destruct q as [|a q].
  - now apply (F p b).
  - apply IH; [|discriminate]. rewrite app_assoc in H. apply F in H. congruence.
Qed.

(** Nothing exists below a path that does not exist. *)
Lemma fs_ok_absent s p q : fs_ok s -> s p = None -> below p q = true -> s q = None.
Proof.
  intros F E B. apply below_spec in B. destruct B as [r ->].
  destruct r as [|a r]; [now rewrite app_nil_r|].
  destruct (s (p ++ a :: r)) eqn:X; [|reflexivity].
  exfalso. assert (s p = Some NDir); [|congruence].
  apply (@fs_ok_below s p (a :: r)); congruence.
Qed.

Lemma below_parent q p a : below q (p ++ [a]) = true -> q <> p ++ [a] -> below q p = true.
Proof.
  intros B N. apply below_spec in B. destruct B as [r E].
  destruct r as [|b r] using rev_ind; [rewrite app_nil_r in E; congruence|].
  rewrite app_assoc in E. apply app_inj_tail in E. destruct E as [-> _]. apply below_app.
Qed.

Lemma mkdirs_ok s p s' : fs_ok s -> fs_mkdirs p s = (s', Ok tt) ->
  fs_ok s' /\ (forall q, s' q = if below q p then Some NDir else s q).
Proof.
  intros F. unfold fs_mkdirs. destruct existsb eqn:E; [discriminate|].
  intros H. inversion H; subst. split; [|reflexivity].
  split.
  - reflexivity.
  - intros q a. destruct (below (q ++ [a]) p) eqn:B.
    + intros _. assert (below q p = true); [|now rewrite H0].
      apply below_spec in B. destruct B as [r ->]. apply below_spec. exists ([a] ++ r). now rewrite app_assoc.
    + intros H0. destruct (below q p); [reflexivity|]. now apply (proj2 F q a).
Qed.

Lemma mkdirs_fails s p : fs_ok s -> snd (fs_mkdirs p s) <> Ok tt -> fst (fs_mkdirs p s) = s.
Proof. intros F. unfold fs_mkdirs. destruct existsb; [reflexivity|]. simpl. congruence. Qed.

Lemma below_antisym' p q : below p q = true -> p <> q -> below q p = false.
Proof.
  intros A N. destruct (below q p) eqn:B; [|reflexivity]. elim N. now apply below_antisym.
Qed.

(** * Read-only handles *)

Lemma readonly_ccall c s : fst (run_ccall Mode_r c s) = s /\ is_ok (snd (run_ccall Mode_r c s)) = false.
Proof.
  assert (NC : forall p, node_create (Handle p Mode_r) = fun s => (s, Throw EInvalidArgument)) by reflexivity.
  assert (FC : forall p m, fs_create_dataset (Handle p Mode_r) m = fun md s => (s, Throw EInvalidArgument)) by reflexivity.
  destruct c; cbn [run_ccall]; try (split; reflexivity).
  - unfold create_group, fbind, freading. destruct is_zarr_group; split; reflexivity.
  - unfold drop, create_dataset, fbind, freading, fret. destruct is_zarr_group; try (split; reflexivity).
    destruct create_metadata; split; reflexivity.
Qed.

Lemma readonly_ccalls : forall cs s,
  snd (run_ccalls Mode_r cs s) = s /\ Forall (fun o => is_ok o = false) (fst (run_ccalls Mode_r cs s)).
Proof.
  induction cs as [|c cs IH]; intros s; [split; [reflexivity|constructor]|]. cbn [run_ccalls].
  destruct (readonly_ccall c s) as [E1 E2]. destruct (run_ccall Mode_r c s) as [s1 o].
  simpl in E1, E2. subst. destruct (IH s) as [F1 F2]. destruct (run_ccalls Mode_r cs s) as [os s2].
  simpl in *. split; [assumption|]. now constructor.
Qed.

(** * Making files *)

Lemma mkdirs_run s p : (forall q, below q p = true -> s q = None \/ s q = Some NDir) ->
  fs_mkdirs p s = ((fun q => if below q p then Some NDir else s q), Ok tt).
Proof.
  intros H. unfold fs_mkdirs. destruct existsb eqn:E; [|reflexivity].
  apply existsb_exists in E. destruct E as [q [I E]]. apply prefixes_below in I.
  unfold fs_exists, fs_isdir in E. destruct (H q I) as [X|X]; rewrite X in E; discriminate.
Qed.

Lemma below_doc p a : below (p ++ [a]) p = false.
Proof. apply below_antisym'; [apply below_app|]. intros E. symmetry in E. now apply snoc_ne in E. Qed.

Lemma write_new p name j s : s p = Some NDir -> s (p ++ [name]) = None ->
  write_doc p name j s =
  ((fun q => if path_eqb q (p ++ [name]) then Some (NDoc (reparse j)) else s q), Ok tt).
Proof. intros H1 H2. apply (@write_doc_at s p name j None); [assumption|assumption|discriminate]. Qed.

Lemma file_metadata_new s p z fmt : s p = Some NDir -> (forall a, s (p ++ [a]) = None) ->
  write_file_metadata p z fmt s =
  ((fun q => if path_eqb q (p ++ [fst (new_doc z fmt)]) then Some (NDoc (snd (new_doc z fmt))) else s q), Ok tt).
Proof.
  intros D N. unfold write_file_metadata, new_doc. destruct z; cbn [andb].
  - destruct (fmt =? 3)%Z.
    + unfold write_v3_group, fbind, freading, read_doc_or, read_doc, fret. rewrite N.
      cbn [bind jput jupd jfind jlookup String.eqb Ascii.eqb Bool.eqb]. cbn.
      now rewrite write_new.
    + now rewrite write_new.
  - unfold fbind, freading, read_doc_or, read_doc, fret. rewrite N. cbn [bind jput].
    now rewrite write_new.
Qed.

Lemma create_file_new h z fmt s : can_create (h_mode h) = true ->
  (forall q, below (h_path h) q = true -> s q = None) -> way_free s (h_path h) ->
  create_file h z fmt s =
  ((fun q => if path_eqb q (h_path h ++ [fst (new_doc z fmt)]) then Some (NDoc (snd (new_doc z fmt)))
             else if below q (h_path h) then Some NDir else s q), Ok tt).
Proof.
  intros C N W. unfold create_file, fbind, file_create. rewrite C. cbn [negb].
  unfold fs_exists at 1. rewrite (N (h_path h)) by apply below_refl.
  rewrite mkdirs_run.
  2:{ intros q B. destruct (path_eqb q (h_path h)) eqn:E.
      - apply path_eqb_eq in E. subst. left. apply N, below_refl.
      - apply W; [assumption|]. intros ->. now rewrite path_eqb_refl in E. }
  rewrite file_metadata_new; [reflexivity| |].
  - now rewrite below_refl.
  - intros a. rewrite below_doc. apply N, below_app.
Qed.

(** The same as the description of a fresh container. *)
Lemma fresh_made s s1 p name j :
  (forall q, s1 q = if below p q then None else s q) ->
  fresh_container s (fun q => if path_eqb q (p ++ [name]) then Some (NDoc j)
                              else if below q p then Some NDir else s1 q) p name j.
Proof.
  intros H q. destruct (path_eqb q (p ++ [name])) eqn:E.
  - apply path_eqb_eq in E. subst. now rewrite below_doc.
  - destruct (below q p); [reflexivity|]. apply H.
Qed.

Lemma mode_facts m :
  (can_write m = false <-> m = Mode_r) /\
  (can_create m = true <-> m = Mode_w \/ m = Mode_w_m \/ m = Mode_a) /\
  (should_truncate m = true <-> m = Mode_w) /\
  (must_not_exist m = true <-> m = Mode_w_m).
Proof. destruct m; vm_compute; repeat split; intuition congruence. Qed.


Theorem open_file_rule h ext use_zarr fmt s :
  fs_ok s -> consistent (infer_format s (h_path h) ext) use_zarr -> way_free s (h_path h) ->
  let p := h_path h in
  let z := infer_format s p ext in
  let (s', r) := py_open_file h ext use_zarr fmt s in
  match open_rule (h_mode h) (fs_exists s p) with
  | OpenIt => s' = s /\ r = check_version s p fmt
  | RejectIt => s' = s /\ r = Throw EFilesystem
  | MakeIt | ReplaceIt =>
      r = Ok fmt /\ fresh_container s s' p (fst (new_doc z fmt)) (snd (new_doc z fmt))
  end.
Proof.
  intros F C W p z. unfold py_open_file. fold p. fold z.
  assert (X : negb (match use_zarr with None => true | Some u => Bool.eqb u z end) = false).
  { destruct C as [->| ->]; [reflexivity|]. fold p. fold z. now rewrite Bool.eqb_reflx. }
  rewrite X. clear X.
  assert (K1 : can_create (h_mode h) = true -> fs_exists s p = false ->
    create_file h z fmt s =
    ((fun q => if path_eqb q (p ++ [fst (new_doc z fmt)]) then Some (NDoc (snd (new_doc z fmt)))
             else if below q p then Some NDir else s q), Ok tt)).
  { intros C1 N. apply create_file_new; try assumption.
    intros q B. apply (fs_ok_absent F (p := p)); [|assumption].
    unfold fs_exists in N. destruct (s p); [discriminate|reflexivity]. }
  assert (K2 : fs_exists s p = false -> forall q, s q = if below p q then None else s q).
  { intros N q. destruct (below p q) eqn:B; [|reflexivity].
    apply (fs_ok_absent F (p := p)); [|assumption].
    unfold fs_exists in N. destruct (s p); [discriminate|reflexivity]. }
  destruct (fs_exists s p) eqn:Ex; destruct (h_mode h) eqn:M;
    cbn [open_rule andb]; unfold fbind at 1, fret at 1;
    try change (should_truncate Mode_w) with true;
    try change (should_truncate Mode_r) with false; try change (should_truncate Mode_r_p) with false;
    try change (should_truncate Mode_a) with false; try change (should_truncate Mode_w_m) with false;
    cbn iota;
    try (unfold fbind, freading, fret; rewrite Ex; cbn; now split).
  - (* w, existing *)
    unfold node_remove. rewrite M. fold p. rewrite Ex. cbn [negb can_write].
    change (negb (can_write Mode_w)) with false. cbn iota.
    unfold fs_remove_all. unfold fbind at 1, freading.
    unfold fs_exists at 1. fold p. rewrite below_refl.
    change (negb (can_create Mode_w)) with false. cbn iota.
    unfold fbind. rewrite create_file_new.
    + unfold fret. split; [reflexivity|]. apply fresh_made. reflexivity.
    + rewrite M. reflexivity.
    + intros q B. fold p in B. now rewrite B.
    + intros q B N. fold p in B, N |- *. rewrite (below_antisym' B N). now apply W.
  - unfold fbind, freading. rewrite Ex. change (negb (can_create Mode_w)) with false. cbn iota.
    cbv beta. rewrite K1 by reflexivity. unfold fret. split; [reflexivity|]. apply fresh_made. now apply K2.
  - unfold fbind, freading. rewrite Ex. change (negb (can_create Mode_w_m)) with false. cbn iota.
    cbv beta. rewrite K1 by reflexivity. unfold fret. split; [reflexivity|]. apply fresh_made. now apply K2.
  - unfold fbind, freading. rewrite Ex. change (negb (can_create Mode_a)) with false. cbn iota.
    cbv beta. rewrite K1 by reflexivity. unfold fret. split; [reflexivity|]. apply fresh_made. now apply K2.
Qed.

(** Inconsistent format requests are rejected, nothing happens. *)
Lemma open_file_inconsistent h ext use_zarr fmt s :
  ~ consistent (infer_format s (h_path h) ext) use_zarr ->
  py_open_file h ext use_zarr fmt s = (s, Throw ERuntime).
Proof.
  intros N. unfold py_open_file. destruct use_zarr as [u|]; [|elim N; now left].
  destruct (Bool.eqb u _) eqn:E; [|reflexivity]. elim N. right. apply Bool.eqb_prop in E. now subst.
Qed.

(** In mode r nothing is ever changed. *)
Lemma open_file_readonly p ext use_zarr fmt s : fst (py_open_file (Handle p Mode_r) ext use_zarr fmt s) = s.
Proof.
  unfold py_open_file. destruct negb; [reflexivity|]. cbn [h_mode h_path].
  change (should_truncate Mode_r) with false. rewrite Bool.andb_false_r.
  unfold fbind, fret, freading. now destruct (fs_exists s p).
Qed.

(** Opening a fresh container. *)
Lemma fresh_paths s s' p name j : fresh_container s s' p name j ->
  s' p = Some NDir /\ s' (p ++ [name]) = Some (NDoc j) /\ (forall a, a <> name -> s' (p ++ [a]) = None).
Proof.
  intros H. repeat split.
  - now rewrite H, below_refl.
  - now rewrite H, below_doc, path_eqb_refl.
  - intros a N. rewrite H, below_doc, path_eqb_ne, below_app; [reflexivity|].
    intros E. apply app_inj_tail in E. tauto.
Qed.

Lemma fresh_version s s' p z fmt fmt' : fresh_container s s' p (fst (new_doc z fmt)) (snd (new_doc z fmt)) ->
  (z = true -> fmt = 2%Z \/ fmt = 3%Z) ->
  check_version s' p fmt' = Ok (if z then fmt else fmt').
Proof.
  intros H Z. apply fresh_paths in H. destruct H as [D [E N]].
  unfold check_version, read_group_metadata, is_zarr_group.
  unfold fs_exists at 1. rewrite D. cbn [negb bind].
  destruct z.
  - destruct (Z eq_refl) as [-> | ->]; cbn [new_doc fst snd Z.eqb Pos.eqb] in *.
    + unfold fs_exists at 1. rewrite E. cbn [orb bind].
      unfold fs_exists at 1. rewrite N by discriminate.
      unfold parse_doc. rewrite E. cbn [bind].
      unfold fs_exists. rewrite D, E. reflexivity.
    + unfold fs_exists at 1 2 3. rewrite E, N by discriminate. cbn [orb bind].
      unfold parse_doc. rewrite E. cbn [bind].
      unfold fs_exists. rewrite D, E, N by discriminate. reflexivity.
  - cbn [new_doc fst snd] in *. unfold fs_exists at 1 2. rewrite !N by discriminate. cbn [orb bind].
    unfold parse_doc. rewrite E. cbn [bind].
    unfold fs_exists. rewrite D, !N by discriminate. reflexivity.
Qed.

Lemma fresh_infer s s' p z fmt ext : fresh_container s s' p (fst (new_doc z fmt)) (snd (new_doc z fmt)) ->
  (forall u, ext = Some u -> u = z) -> infer_format s' p ext = z.
Proof.
  intros H X. apply fresh_paths in H. destruct H as [D [E N]].
  destruct ext as [u|]; [now apply X|]. unfold infer_format, fs_exists.
  destruct z.
  - cbn [new_doc] in *. destruct (fmt =? 3)%Z; cbn [fst snd] in *; rewrite E, ?N by discriminate; reflexivity.
  - cbn [new_doc fst snd] in *. now rewrite !N by discriminate.
Qed.

(** * Creating datasets *)

Definition md_doc (m : metadata) : string :=
  (if md_zarr m then if (md_format m =? 3)%Z then "zarr.json" else ".zarray" else "attributes.json")%string.

Lemma node_create_inv h s s' : fs_ok s -> node_create h s = (s', Ok tt) ->
  h_mode h <> Mode_r /\ s (h_path h) = None /\
  (forall q, s' q = if below q (h_path h) then Some NDir else s q).
Proof.
  intros F. unfold node_create. destruct (is_mode_r (h_mode h)) eqn:M; [discriminate|].
  unfold fs_exists. destruct (s (h_path h)) eqn:E; [discriminate|].
  intros H. apply mkdirs_ok in H; [|assumption]. repeat split; [|now apply H].
  intros X. now rewrite X in M.
Qed.

Lemma dataset_metadata_new s p m j : s p = Some NDir -> (forall a, s (p ++ [a]) = None) ->
  to_json m = Ok j ->
  write_dataset_metadata p m s =
  ((fun q => if path_eqb q (p ++ [md_doc m]) then Some (NDoc (reparse j)) else s q), Ok tt).
Proof.
  intros D N J. unfold write_dataset_metadata, md_doc. destruct (md_zarr m); cbn [andb].
  - destruct (md_format m =? 3)%Z.
    + unfold fbind, freading, read_doc, fret. rewrite N, J. now rewrite write_new.
    + unfold fbind, fret. rewrite J. now rewrite write_new.
  - unfold fbind, fret. rewrite J. now rewrite write_new.
Qed.

Lemma dataset_metadata_fails s p m e : s p = Some NDir -> (forall a, s (p ++ [a]) = None) ->
  to_json m = e -> is_ok e = false ->
  fst (write_dataset_metadata p m s) = s /\ is_ok (snd (write_dataset_metadata p m s)) = false.
Proof.
  intros D N J E. unfold write_dataset_metadata. destruct (_ && _).
  - unfold fbind, freading, read_doc, fret. rewrite N, J. destruct e; [discriminate| |]; now split.
  - unfold fbind, fret. rewrite J. destruct e; [discriminate| |]; now split.
Qed.

(** What creating a dataset did. *)
Record created (s s' : fsys) (h : handle) (ka : key_args) (m : metadata) (o : opened) (j : json) : Prop := {
  cr_mode : h_mode h <> Mode_r;
  cr_absent : s (h_path h) = None;
  cr_json : to_json m = Ok j;
  cr_made : make_dataset h ka m = Ok o;
  cr_fs : fresh_container s s' (h_path h) (md_doc m) (reparse j)
}.

Lemma fs_create_inv h ka m s s' o : fs_ok s -> fs_create_dataset h ka m s = (s', Ok o) ->
  exists j, created s s' h ka m o j.
Proof.
  intros F. unfold fs_create_dataset, fbind at 1.
  destruct (node_create h s) as [s1 [[]|e|]] eqn:C; [|discriminate|discriminate].
  apply node_create_inv in C; [|assumption]. destruct C as [M [A S1]].
  assert (D : s1 (h_path h) = Some NDir) by now rewrite S1, below_refl.
  assert (N : forall a, s1 (h_path h ++ [a]) = None).
  { intros a. rewrite S1, below_doc. apply (fs_ok_absent F A). apply below_app. }
  unfold fbind, fret.
  destruct (to_json m) as [j|e|] eqn:J.
  - rewrite (dataset_metadata_new D N J). intros H. inversion H as [[H1 H2]]. exists j.
    split; auto.
    intros q. destruct (path_eqb q (h_path h ++ [md_doc m])) eqn:E.
    + apply path_eqb_eq in E. subst q. now rewrite below_doc.
    + rewrite S1. destruct (below q (h_path h)); [reflexivity|].
      destruct (below (h_path h) q) eqn:B; [|reflexivity]. now apply (fs_ok_absent F A).
  - destruct (@dataset_metadata_fails s1 (h_path h) m _ D N J eq_refl) as [_ X].
    destruct write_dataset_metadata as [s2 [| |]]; simpl in X; discriminate.
  - destruct (@dataset_metadata_fails s1 (h_path h) m _ D N J eq_refl) as [_ X].
    destruct write_dataset_metadata as [s2 [| |]]; simpl in X; discriminate.
Qed.


Lemma app_below (p r q : path) : below (p ++ r) (p ++ q) = below r q.
Proof. induction p; simpl; [reflexivity|]. now rewrite String.eqb_refl. Qed.

Lemma fresh_root s s' root key name j : fresh_container s s' (root ++ key) name j -> key_free key ->
  s root <> None -> fs_ok s ->
  is_zarr_group s' root = is_zarr_group s root.
Proof.
  intros H K R F.
  assert (X : forall a, match key with [] => False | b :: _ => b <> a end -> s' (root ++ [a]) = s (root ++ [a])).
  { intros a. destruct key as [|b key]; [tauto|]. intros N. rewrite H, !app_below.
    cbn [below]. destruct (String.eqb_spec a b) as [->|_]; [tauto|]. cbn [andb].
    rewrite path_eqb_ne.
    2:{ rewrite <- app_assoc. intros E. apply app_inv_head in E. inversion E. destruct key; discriminate. }
    destruct (String.eqb_spec b a); [congruence|]. reflexivity. }
  unfold is_zarr_group, fs_exists.
  assert (Y : s' root = Some NDir) by now rewrite H, below_app.
  rewrite Y. destruct key as [|b key]; [elim K|]. destruct K as [K1 K2]. rewrite !X by assumption.
  destruct (s root); [reflexivity|congruence].
Qed.

Lemma make_inv h ka m o : make_dataset h ka m = Ok o ->
  exists b f c, mk_blocking (md_shape m) (md_chunks m) = Ok b /\
    element_fill (md_dtype m) (md_fill m) = Ok f /\ init_compressor (md_comp m) (md_opts m) = Ok c /\
    op_fill o = f /\ op_codec o = c.
Proof.
  unfold make_dataset. destruct mk_blocking as [b| |]; [|discriminate|discriminate].
  destruct element_fill as [f| |]; [|discriminate|discriminate].
  destruct init_compressor as [c| |]; [|discriminate|discriminate].
  cbn [bind]. intros H. inversion H. exists b, f, c. now repeat split.
Qed.

(** Making the dataset object from metadata that says the same. *)
Lemma make_same h ka ka' m m' o c' : make_dataset h ka m = Ok o -> same_array m m' -> md_zarr m' = md_zarr m ->
  element_fill (md_dtype m') (md_fill m') = element_fill (md_dtype m) (md_fill m) ->
  init_compressor (md_comp m') (md_opts m') = Ok c' -> same_codec (op_codec o) c' ->
  (md_zarr m = true -> ka_delim ka' = ka_delim ka) ->
  (forall z ids, (z = true -> md_zarr m = true) ->
    chunk_key (KeyConfig z (ka_delim ka') (Z.to_N (ka_format ka')) (ka_enc ka')) ids =
    chunk_key (KeyConfig z (ka_delim ka) (Z.to_N (ka_format ka)) (ka_enc ka)) ids) ->
  (md_zarr m = false -> md_shard m = []) ->
  exists o', make_dataset h ka' m' = Ok o' /\ same_object o o'.
Proof.
  intros M [S1 S2 S3 S4] Z E I C D K SH. destruct (make_inv M) as [b [f [c [B [F [I0 [OF OC]]]]]]].
  unfold make_dataset in *. rewrite S1, S2, S3, S4, Z, I in *. rewrite E.
  rewrite B, F, I0 in *. cbn [bind] in *. inversion M; subst o. clear M.
  eexists. split; [reflexivity|].
  set (cx := match md_dtype m with DT_complex64 | DT_complex128 | DT_complex256 => true | _ => false end) in *.
  assert (ZZ : match (if cx then [] else md_shard m) with [] => md_zarr m | _ => true end = true -> md_zarr m = true).
  { destruct (md_zarr m); [reflexivity|]. rewrite SH by reflexivity. destruct cx; discriminate. }
  split; cbn; try reflexivity; try assumption.
  - intros H. apply D, ZZ, H.
  - intros ids. now apply K.
Qed.

Lemma chunk_config_v3 s p m j l : s (p ++ ["zarr.json"%string]) = Some (NDoc (reparse j)) ->
  to_json_v3 m = Ok j -> l = KeyArgs (md_delim m) 3 (md_enc m) -> chunk_config s p = Ok l.
Proof.
  intros E J ->. unfold to_json_v3 in J.
  destruct (eat _) as [dt| |]; [|discriminate|discriminate].
  destruct (fill_json_v3 _ _) as [fv| |]; [|discriminate|discriminate].
  destruct (write_v3_codecs _ _ _) as [c| |]; [|discriminate|discriminate].
  cbn [bind] in J. inversion J; subst. unfold chunk_config, fs_exists, parse_doc. rewrite E. reflexivity.
Qed.

Lemma chunk_config_v2 s p m j l : s (p ++ ["zarr.json"%string]) = None ->
  s (p ++ [".zarray"%string]) = Some (NDoc (reparse j)) ->
  to_json_v2 m = Ok j -> l = KeyArgs (md_delim m) 2 "default" -> chunk_config s p = Ok l.
Proof.
  intros E0 E J ->. unfold to_json_v2 in J.
  destruct (write_zarr_options _ _) as [c| |]; [|discriminate|discriminate].
  destruct (eat _) as [dt| |]; [|discriminate|discriminate].
  cbn [bind] in J. inversion J; subst. unfold chunk_config, fs_exists, parse_doc. rewrite E0, E. reflexivity.
Qed.

Lemma key_format2 z d e e' ids :
  chunk_key (KeyConfig z d 2 e) ids = chunk_key (KeyConfig z d 2 e') ids.
Proof. reflexivity. Qed.

Theorem created_reopens root key mode s s' m o j :
  fs_ok s -> key_free key ->
  is_zarr_group s root = Ok (md_zarr m) ->
  (md_zarr m = true -> md_format m = 2%Z \/ md_format m = 3%Z) ->
  lenN (md_shape m) = lenN (md_chunks m) -> options_ok (md_opts m) -> dbl_ok (md_fill m) ->
  (md_shard m <> [] -> md_zarr m = true /\ md_format m = 3%Z) ->
  created s s' (Handle (root ++ key) mode) (KeyArgs (md_delim m) (md_format m) (md_enc m)) m o j ->
  recordable_codec (md_zarr m) (md_format m) (op_codec o) ->
  recordable_fill (md_zarr m) (md_dtype m) (op_fill o) ->
  exists o', open_dataset s' (Handle root mode) key = Ok o' /\ same_object o o'.
Proof.
  intros F K R Z L O D SH [M A J MK FR] RC RF. cbn [h_path h_mode] in *.
  destruct (make_inv MK) as [b [f [c [B [EF [I [OF OC]]]]]]].
  assert (R' : is_zarr_group s' root = Ok (md_zarr m)).
  { rewrite <- R. apply (fresh_root FR K); [|assumption]. intros X. unfold is_zarr_group, fs_exists in R.
    rewrite X in R. discriminate. }
  unfold open_dataset. cbn [h_path h_mode]. rewrite R'. cbn [bind].
  destruct (fresh_paths FR) as [PD [PE PN]].
  unfold to_json in J.
  assert (FO : forall ka m', metadata_doc s' (root ++ key) = Ok (md_zarr m, md_doc m) ->
     from_json (reparse j) (md_zarr m) = Ok m' ->
     fs_open_dataset s' (Handle (root ++ key) mode) ka = make_dataset (Handle (root ++ key) mode) ka m').
  { intros ka m' H1 H2. unfold fs_open_dataset. cbn [h_path]. unfold fs_exists. rewrite PD. cbn [negb].
    unfold read_dataset_metadata. rewrite H1. cbn [bind]. unfold parse_doc. rewrite PE. cbn [bind].
    now rewrite H2. }
  assert (MD : metadata_doc s' (root ++ key) = Ok (md_zarr m, md_doc m)).
  { unfold metadata_doc, md_doc, fs_exists in *. destruct (md_zarr m).
    - destruct (md_format m =? 3)%Z; rewrite PE, !PN by discriminate; reflexivity.
    - rewrite PE, !PN by discriminate. reflexivity. }
  unfold md_doc in PE, PN.
  destruct (md_zarr m) eqn:ZM.
  - destruct (Z eq_refl) as [Z2|Z3].
    + rewrite Z2 in J, PE, PN. cbn [Z.eqb Pos.eqb andb] in J, PE, PN.
      assert (SH0 : md_shard m = []).
      { destruct (md_shard m); [reflexivity|]. destruct SH as [_ X]; [discriminate|]. congruence. }
      assert (J' : to_json m = Ok j) by (unfold to_json; rewrite ZM, Z2; exact J).
      destruct (@v2_back m j c ZM Z2 SH0 L O J' I) as [m' [c' [G1 [G2 [G3 [G4 [G5 [G6 [G7 [G8 G9]]]]]]]]]].
      assert (PN0 := PN "zarr.json"%string ltac:(discriminate)).
      rewrite (@chunk_config_v2 s' (root ++ key) m j _ PN0 PE J eq_refl).
      cbn [bind]. rewrite (FO _ m') by assumption.
      apply (@make_same _ (KeyArgs (md_delim m) (md_format m) (md_enc m)) _ m m' o c'); try assumption.
      * now rewrite ZM.
      * rewrite G5. now rewrite (sa_dtype G2).
      * now rewrite OC.
      * reflexivity.
      * intros z ids _. cbn [ka_delim ka_format ka_enc]. rewrite Z2. reflexivity.
      * intros X. congruence.
    + rewrite Z3 in J, PE, PN. cbn [Z.eqb Pos.eqb andb] in J, PE, PN.
      assert (J' : to_json m = Ok j) by (unfold to_json; rewrite ZM, Z3; exact J).
      destruct (@v3_back m j c f ZM Z3 L O D J' I EF) as [m' [G1 [G2 [G3 [G4 [G5 [G6 [G7 [G8 [G9 G10]]]]]]]]]].
      rewrite (@chunk_config_v3 s' (root ++ key) m j _ PE J eq_refl).
      cbn [bind]. rewrite (FO _ m') by assumption.
      apply (@make_same _ (KeyArgs (md_delim m) (md_format m) (md_enc m)) _ m m' o (v3_view c)); try assumption.
      * now rewrite ZM.
      * now rewrite G5.
      * rewrite OC in *. rewrite Z3 in RC. unfold v3_view, recordable_codec in *. destruct c; try reflexivity.
        -- assert (0 <= shuffle <= 2)%Z by (now apply RC).
           assert (X : (shuffle = 0 \/ shuffle = 1 \/ shuffle = 2)%Z) by lia.
           destruct X as [->|[->| ->]]; now repeat split.
        -- destruct RC as [[_ X]| ->]; [discriminate|reflexivity].
      * reflexivity.
      * intros z ids _. cbn [ka_delim ka_format ka_enc]. now rewrite Z3.
      * intros X. congruence.
  - cbn [andb] in *. assert (SH0 : md_shard m = []).
    { destruct (md_shard m); [reflexivity|]. destruct SH as [X _]; [discriminate|]. congruence. }
    assert (J' : to_json m = Ok j) by (unfold to_json; rewrite ZM; exact J).
    destruct (@n5_back m j c ZM SH0 L O J' I) as [m' [c' [G1 [G2 [G3 [G4 [G5 [G6 G7]]]]]]]].
    cbn [bind]. rewrite (FO _ m') by assumption.
    apply (@make_same _ (KeyArgs (md_delim m) (md_format m) (md_enc m)) _ m m' o c'); try assumption.
    + now rewrite ZM.
    + rewrite G4, (sa_dtype G2), EF. destruct RF as [X|X]; [discriminate|]. now rewrite OF in X.
    + rewrite OC in *. unfold recordable_codec in RC. destruct c; try (now rewrite G7).
      rewrite G7. destruct RC as [[X _]| ->]; [discriminate|reflexivity].
    + rewrite ZM. discriminate.
    + intros z ids X. destruct z; [rewrite ZM in X; now discriminate X|]. reflexivity.
    + intros _. exact SH0.
Qed.
