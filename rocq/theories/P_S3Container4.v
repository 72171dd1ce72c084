(** Proofs about containers in an object store: opening, creating and removing. *)
From Coq Require Import ZArith Ascii String.
From Verif Require Import M_Base P_Base M_Double M_Json M_Mode M_Key M_Blocking M_Metadata M_Fs M_Attributes M_Container M_Store M_S3 M_S3Container
  S_Attributes P_Attributes S_Container P_Container P_Container2 P_Container3 S_Text S_S3 S_S3Container P_Key P_S3 P_S3Sim
  P_S3Container P_S3Container2 P_S3Container3.
Import ListNotations.
Set Implicit Arguments.
Local Open Scope list_scope.
Local Open Scope N_scope.

(** A new directory with a document. *)
Definition with_node (t : fsys) (P : path) (c : string) (j : json) : fsys :=
  fun r => if path_eqb r (P ++ [c]) then Some (NDoc j) else if below r P then Some NDir else t r.

Lemma with_node_ok t P c j : fs_ok t -> t P = None -> way_free t P -> fs_ok (with_node t P c j).
Proof.
  intros F N W. assert (D : forall q, below q P = true -> t q = None \/ t q = Some NDir).
  { intros q B. destruct (path_eqb q P) eqn:E; [apply path_eqb_eq in E; subst; now left|]. apply W; [exact B|].
    intros ->. now rewrite path_eqb_refl in E. }
  pose proof (mkdirs_run D) as R. destruct (mkdirs_ok F R) as [F1 _].
  split.
  - unfold with_node. rewrite path_eqb_ne by now destruct P. cbn. reflexivity.
  - intros q a. unfold with_node. destruct (path_eqb (q ++ [a]) (P ++ [c])) eqn:E.
    + apply path_eqb_eq in E. apply app_inj_tail in E as [-> ->]. intros _. rewrite path_eqb_ne, below_refl; [reflexivity|].
      intros X. symmetry in X. now apply snoc_ne in X.
    + intros H. destruct F1 as [_ F1]. specialize (F1 q a H). cbn in F1. destruct (path_eqb q (P ++ [c])) eqn:X; [|exact F1].
      apply path_eqb_eq in X. subst. exfalso. rewrite below_doc in F1. rewrite (@fs_ok_absent t P (P ++ [c]) F N (below_app _ _)) in F1. discriminate.
Qed.

Section Mirror.
Variables (T : text_codec) (p : path) (n : string) (s0 : s3).
Hypothesis TOK : text_ok T.
Notation alike := (alike T p n s0).
Notation tells := (tells T p n s0).
Notation both := (@both T p n s0).
Notation h q m := (S3Handle (place n q) m).

(** * Groups below *)

Lemma tells_object_below t q c d : Forall plain_name (q ++ [c]) -> In d documents ->
  tells t (object_exists (join_key (place n q) (c ++ "/" ++ d))) (Ok (fs_exists t (p ++ q ++ [c; d]))).
Proof using.
  intros F I s A0. replace (join_key (place n q) (c ++ "/" ++ d)) with (place n ((q ++ [c]) ++ [d])).
  - replace (q ++ [c; d]) with ((q ++ [c]) ++ [d]) by now rewrite <- app_assoc. exact (object_step A0 F I).
  - rewrite <- join_place, <- join_place. destruct (place n q) as [|a x] eqn:E.
    + cbn. destruct c; [|reflexivity]. apply Forall_app in F as [_ F]. inversion F as [|? ? [X _] _]. now elim X.
    + cbn. now rewrite sapp_assoc3.
Qed.
Lemma tells_read_below t q c d : Forall plain_name (q ++ [c]) -> In d documents ->
  tells t (s3_read_json T (join_key (place n q) (c ++ "/" ++ d))) (read_doc t (p ++ q ++ [c]) d).
Proof using.
  intros F I s A0. replace (join_key (place n q) (c ++ "/" ++ d)) with (place n ((q ++ [c]) ++ [d])).
  - exact (read_step A0 F I).
  - rewrite <- join_place, <- join_place. destruct (place n q) as [|a x] eqn:E.
    + cbn. destruct c; [|reflexivity]. apply Forall_app in F as [_ F]. inversion F as [|? ? [X _] _]. now elim X.
    + cbn. now rewrite sapp_assoc3.
Qed.

Lemma tells_sub_group t q c m : Forall plain_name (q ++ [c]) -> is_node HGroup t (p ++ q) -> fs_ok t ->
  tells t (s3_is_sub_group T (h q m) c) (is_sub_group t (p ++ q) [c]).
Proof using.
  intros F N OK. pose proof (node_zarr N) as Z. cbn [handle_is_zarr] in Z. assert (Fq : Forall plain_name q) by (now apply Forall_app in F).
  assert (E : is_sub_group t (p ++ q) [c] = bind (Ok true) (fun _ : bool =>
    bind (Ok (fs_exists t (p ++ q ++ [c; "zarr.json"%string]))) (fun v3 : bool => if v3 then
      (let! j := read_doc_or t (p ++ q ++ [c]) "zarr.json" JNull in
       let! nt := jvalue jget_str "node_type" "group"%string j in Ok (String.eqb nt "group"))
      else Ok (fs_exists t (p ++ q ++ [c; ".zgroup"%string]))))).
  { unfold is_sub_group. rewrite Z. cbn [bind app]. rewrite <- !app_assoc. cbn [app].
    destruct (fs_exists t (p ++ q ++ [c])) eqn:X; [now cbn [negb]|]. cbn [negb].
    assert (G : forall d, fs_exists t (p ++ q ++ [c; d]) = false).
    { intros d. unfold fs_exists in *. destruct (t (p ++ q ++ [c])) eqn:Y; [discriminate|].
      rewrite (@fs_ok_absent t (p ++ q ++ [c]) (p ++ q ++ [c; d]) OK Y); [reflexivity|].
      replace (p ++ q ++ [c; d]) with ((p ++ q ++ [c]) ++ [d]) by now rewrite <- !app_assoc. apply below_app. }
    now rewrite !G. }
  rewrite E. unfold s3_is_sub_group. apply tells_bind.
  { rewrite <- Z. exact (@tells_zarr T p n s0 q Fq t HGroup m (proj1 N)). }
  intros z [= <-]. unfold g_is_sub_group. cbn [io_node s3_io io_exists io_read sh_name].
  intros s A0. unfold abind at 1, aret at 1. cbn [negb]. revert s A0. apply tells_bind; [apply tells_object_below; [exact F|cbn; tauto]|].
  intros v3 _. apply tells_if; intros _.
  - apply tells_bind; [|intros j _; apply tells_bind; [apply tells_ret|intros nt _; apply tells_ret]].
    apply tells_bind; [apply tells_read_below; [exact F|cbn; tauto]|]. intros o _. apply tells_ret.
  - apply tells_object_below; [exact F|cbn; tauto].
Qed.

(** * Opening datasets *)

Lemma tells_get t q c : Forall plain_name q -> In c documents ->
  forall s, alike t s -> exists s' o, get_object (join_key (place n q) c) s = (s', Ok o) /\ objects s' = objects s /\ reliable s' /\
    stored T c (t (p ++ q ++ [c])) o.
Proof using.
  intros F I s A0. rewrite join_place. destruct (get_step A0 F I) as (s' & E & O & R). exists s', (lookup (objects s) (place n (q ++ [c]))).
  repeat (split; auto). destruct A0 as [M _]. exact (@mi_files _ _ _ _ _ M q c (plain_snoc F (document_plain I))).
Qed.

Lemma stored_parse c f o : In c documents -> f <> Some NDir -> stored T c f o ->
  match o with
  | Some b => match parse T b with Some j => Ok j | None => Throw EJson end = match f with Some (NDoc j) => Ok j | _ => Throw EJson end /\ f <> None
  | None => f = None
  end.
Proof using.
  intros I D H. destruct f as [[|j|b]|]; cbn [stored] in H; [congruence| | |now subst].
  - destruct H as (b & -> & -> & _). split; [reflexivity|discriminate].
  - destruct H as [-> H]. destruct (H I) as [-> _]. split; [reflexivity|discriminate].
Qed.

Lemma tells_config t q c m : Forall plain_name (q ++ [c]) -> tells t (s3_chunk_config T (h q m) c) (chunk_config t (p ++ q ++ [c])).
Proof using.
  intros F s A0. unfold s3_chunk_config. cbn [sh_name]. rewrite join_place.
  pose proof A0 as [M _]. assert (D : forall d, In d documents -> t (p ++ (q ++ [c]) ++ [d]) <> Some NDir) by (intros d I; exact (@mi_names _ _ _ _ _ M (q ++ [c]) d I)).
  unfold abind. destruct (@tells_get t (q ++ [c]) "zarr.json" F ltac:(cbn; tauto) s A0) as (s1 & o & -> & O & R & H).
  apply (@stored_parse "zarr.json" _ _ ltac:(cbn; tauto) (D "zarr.json"%string ltac:(cbn; tauto))) in H. unfold chunk_config, fs_exists, parse_doc. rewrite <- !app_assoc in *. cbn [app] in *.
  destruct o as [b|].
  - destruct H as [-> H]. destruct (t (p ++ q ++ [c; "zarr.json"%string])) as [f|]; [|congruence]. exists s1. split; [|auto]. unfold aret. reflexivity.
  - rewrite H. destruct (@tells_get t (q ++ [c]) ".zarray" F ltac:(cbn; tauto) s1 (alike_same A0 O R)) as (s2 & o & -> & O2 & R2 & H2).
    apply (@stored_parse ".zarray" _ _ ltac:(cbn; tauto) (D ".zarray"%string ltac:(cbn; tauto))) in H2. rewrite <- !app_assoc in *. cbn [app] in *.
    exists s2. split; [|split; [congruence|exact R2]]. unfold aret. f_equal. destruct o as [b|].
    + destruct H2 as [-> H2]. destruct (t (p ++ q ++ [c; ".zarray"%string])) as [f|]; [|congruence]. reflexivity.
    + now rewrite H2.
Qed.

Lemma tells_metadata t q m : Forall plain_name q -> t (p ++ q) = Some NDir -> mirror T p n t s0 \/ (exists s, alike t s) ->
  tells t (s3_read_metadata T (h q m)) (read_dataset_metadata t (p ++ q)).
Proof using.
  intros F D _ s A0. pose proof A0 as [M _].
  assert (E : read_dataset_metadata t (p ++ q) =
    bind (Ok (fs_exists t (p ++ q ++ ["zarr.json"%string]))) (fun v3 : bool =>
    bind (if v3 then Ok false else Ok (fs_exists t (p ++ q ++ [".zarray"%string]))) (fun v2 : bool =>
    bind (read_doc t (p ++ q) (if v3 then "zarr.json" else if v2 then ".zarray" else "attributes.json")%string) (fun o =>
    match o with None => Throw ERuntime | Some j => from_json j (v3 || v2) end)))).
  { pose proof (@mi_zarr _ _ _ _ _ M q F) as A. pose proof (fun c => @mi_names _ _ _ _ _ M q c) as ND.
    unfold read_dataset_metadata, metadata_doc, read_doc, parse_doc, fs_exists. rewrite <- !app_assoc, A. cbn [bind].
    destruct (t (p ++ q ++ ["zarr.json"%string])) as [f3|] eqn:E3; destruct (t (p ++ q ++ [".zarray"%string])) as [f2|] eqn:E2;
      cbn [negb andb orb bind]; rewrite <- ?app_assoc, ?E2, ?E3, ?A; try reflexivity.
    - destruct f3; reflexivity.
    - destruct f3; reflexivity.
    - destruct f2; reflexivity. }
  rewrite E. clear M. revert s A0. unfold s3_read_metadata. cbn [sh_name].
  apply tells_bind; [apply tells_object; [exact F|cbn; tauto]|]. intros v3 _.
  apply tells_bind; [destruct v3; [apply tells_ret|apply tells_object; [exact F|cbn; tauto]]|]. intros v2 _.
  apply tells_bind; [apply tells_read; [exact F|destruct v3, v2; cbn; tauto]|]. intros [j|] _; apply tells_ret.
Qed.

Lemma make_moved P P' m ka md : omap (opened_at P) (make_dataset (Handle P m) ka md) = omap (opened_at P') (make_dataset (Handle P' m) ka md).
Proof using.
  unfold make_dataset, omap. destruct (mk_blocking _ _); cbn [bind]; try reflexivity. destruct (element_fill _ _); cbn [bind]; try reflexivity.
  destruct (init_compressor _ _); cbn [bind]; try reflexivity. unfold opened_at. cbn [op_path h_path]. now rewrite !path_eqb_refl.
Qed.
Lemma s3_make P' P m ka md : is_complex (md_dtype md) = false ->
  omap (opened_at [P']) (s3_make_dataset (S3Handle P' m) ka md) = omap (opened_at P) (make_dataset (Handle P m) ka md).
Proof using. intros C. rewrite (make_moved P [P']). unfold s3_make_dataset. cbn [sh_name sh_mode]. destruct (md_dtype md); try reflexivity; discriminate. Qed.

Lemma tells_omap t A B (g : A -> B) (a : act s3 A) o : tells t (abind a (fun x => aret (Ok (g x)))) (bind o (fun x => Ok (g x))) -> tells t (amap g a) (omap g o).
Proof using.
  intros H s A0. destruct (H s A0) as (s' & E & X). exists s'. split; [|exact X]. unfold amap, abind, aret, omap in *.
  destruct (a s) as [s1 [x|e|]]; destruct o; cbn in *; congruence.
Qed.

Lemma tells_open t q c m : Forall plain_name (q ++ [c]) -> t (p ++ q) = Some NDir ->
  (forall md, read_dataset_metadata t (p ++ q ++ [c]) = Ok md -> is_complex (md_dtype md) = false) ->
  tells t (amap (opened_at [place n (q ++ [c])]) (s3_open_dataset T (h q m) c)) (omap (opened_at (p ++ q ++ [c])) (open_dataset t (Handle (p ++ q) m) [c])).
Proof using.
  intros F D C s A0. assert (Fq : Forall plain_name q) by (now apply Forall_app in F).
  unfold s3_open_dataset, open_dataset. cbn [h_path h_mode]. rewrite <- app_assoc.
  destruct (@tells_zarr T p n s0 q Fq t HGroup m D s A0) as (s1 & E1 & O1 & R1). cbn [s3_handle_is_zarr handle_is_zarr] in E1.
  unfold amap, abind. rewrite E1. destruct (is_zarr_group t (p ++ q)) as [z|e|]; cbn [bind]; [|eauto|eauto].
  pose proof (alike_same A0 O1 R1) as A1.
  assert (K : tells t (if z then s3_chunk_config T (h q m) c else aret (Ok (KeyArgs "." 2 "default")))
               (if z then chunk_config t (p ++ q ++ [c]) else Ok (KeyArgs "." 2 "default"))).
  { apply tells_if; intros _; [now apply tells_config|apply tells_ret]. }
  destruct (K s1 A1) as (s2 & E2 & O2 & R2). rewrite E2. clear K E2.
  destruct (if z then chunk_config t (p ++ q ++ [c]) else _) as [ka|e|]; cbn [bind omap]; [|exists s2; split; [reflexivity|split; [congruence|auto]]..].
  pose proof (alike_same A1 O2 R2) as A2. rewrite child_place.
  destruct (@tells_exists T p n s0 (q ++ [c]) F t m s2 A2) as (s3 & E3 & O3 & R3). rewrite E3.
  unfold fs_open_dataset. cbn [h_path]. pose proof (alike_same A2 O3 R3) as A3. pose proof A3 as [M _].
  assert (FS : fs_ok t) by exact (mi_fs M).
  destruct (fs_isdir t (p ++ q ++ [c])) eqn:X; cbn [negb].
  - assert (Dc : t (p ++ q ++ [c]) = Some NDir). { unfold fs_isdir in X. destruct (t (p ++ q ++ [c])) as [[]|]; congruence. }
    unfold fs_exists. rewrite Dc. cbn [negb].
    destruct (@tells_metadata t (q ++ [c]) m F Dc (or_intror (ex_intro _ s3 A3)) s3 A3) as (s4 & E4 & O4 & R4). rewrite E4.
    exists s4. split; [|split; [congruence|exact R4]]. destruct (read_dataset_metadata t (p ++ q ++ [c])) as [md|e|]; cbn [bind omap]; [|reflexivity..].
    unfold aret, omap. f_equal. exact (@s3_make (place n (q ++ [c])) (p ++ q ++ [c]) m ka md (C md eq_refl)).
  - exists s3. split; [|split; [congruence|exact R3]]. unfold aret. f_equal.
    assert (G : forall d, t ((p ++ q ++ [c]) ++ [d]) = None).
    { intros d. destruct (t ((p ++ q ++ [c]) ++ [d])) eqn:Y; [|reflexivity]. exfalso.
      assert (t (p ++ q ++ [c]) = Some NDir). { destruct FS as [_ FS]. apply (FS _ d). congruence. }
      unfold fs_isdir in X. rewrite H in X. discriminate. }
    destruct (fs_exists t (p ++ q ++ [c])); [|reflexivity]. cbn [negb]. unfold read_dataset_metadata, metadata_doc, fs_exists. now rewrite !G.
Qed.

(** * New nodes *)

Lemma mirror_new t s q c j s' : mirror T p n t s -> Forall plain_name q -> In c markers ->
  t (p ++ q) = None -> way_free t (p ++ q) -> (forall q0 c0, q = q0 ++ [c0] -> t (p ++ q0) = Some NDir /\ ~ In c0 documents) ->
  objects s' = put_key (place n (q ++ [c])) (dump T j) (objects s) ->
  mirror T p n (with_node t (p ++ q) c (reparse j)) s'.
Proof using TOK.
  intros M F Ic N W PA O. pose proof (marker_document Ic) as I. pose proof (plain_snoc F (document_plain I)) as Fc.
  pose proof (with_node_ok c (reparse j) (mi_fs M) N W) as OK'.
  set (t' := with_node t (p ++ q) c (reparse j)) in *.
  assert (Es : t' (p ++ q ++ [c]) = Some (NDoc (reparse j))). { unfold t', with_node. now rewrite <- app_assoc, path_eqb_refl. }
  assert (Eq : t' (p ++ q) = Some NDir).
  { unfold t', with_node. rewrite path_eqb_ne, below_refl; [reflexivity|]. intros X. symmetry in X. now apply snoc_ne in X. }
  assert (Ed : forall r, r <> q -> r <> q ++ [c] -> t' (p ++ r) = t (p ++ r)).
  { intros r N1 N2. unfold t', with_node. rewrite path_eqb_ne; [|rewrite <- app_assoc; intros X; now apply app_inv_head in X].
    destruct (below (p ++ r) (p ++ q)) eqn:B; [|reflexivity]. apply below_spec in B as [x X]. rewrite <- app_assoc in X. apply app_inv_head in X.
    destruct x as [|y x]; [rewrite app_nil_r in X; congruence|]. destruct (@exists_last _ (y :: x)) as (x' & c0 & E); [discriminate|].
    rewrite E, app_assoc in X. destruct (PA _ _ X) as [D _]. destruct x' as [|y' x'].
    - rewrite app_nil_r in D. now rewrite D.
    - rewrite app_assoc in D. symmetry. apply (@fs_ok_below t (p ++ r) (y' :: x') (mi_fs M)); [congruence|discriminate]. }
  assert (L : forall k, k <> place n (q ++ [c]) -> lookup (objects s') k = lookup (objects s) k).
  { intros k K. rewrite O, lookup_put. destruct (String.eqb_spec k (place n (q ++ [c]))); [contradiction|reflexivity]. }
  assert (Ls : lookup (objects s') (place n (q ++ [c])) = Some (dump T j)). { now rewrite O, lookup_put, String.eqb_refl. }
  assert (Dec : forall r x : path, r = x \/ r <> x). { intros r x. destruct (path_eqb r x) eqn:E; [left; now apply path_eqb_eq|]. right. intros ->. now rewrite path_eqb_refl in E. }
  constructor.
  - exact OK'.
  - intros r d Fr. destruct (Dec (r ++ [d]) (q ++ [c])) as [X|X].
    + apply app_inj_tail in X as [-> ->]. rewrite Es, Ls. cbn [stored]. exists (dump T j). destruct (TOK j). auto.
    + rewrite L by (intros Y; apply place_inj in Y; auto). destruct (Dec (r ++ [d]) q) as [Y|Y].
      * pose proof (@mi_files _ _ _ _ _ M r d Fr) as H. rewrite Y in *. rewrite N in H. rewrite Eq. exact H.
      * rewrite Ed by assumption. exact (@mi_files _ _ _ _ _ M r d Fr).
  - intros k [b H] K. destruct (String.eqb_spec k (place n (q ++ [c]))) as [->|X].
    + exists (q ++ [c]). split; [now destruct q|auto].
    + rewrite L in H by exact X. exact (mi_keys M (ex_intro _ b H) K).
  - intros r Fr H. destruct (Dec r q) as [->|X]; [eauto|]. assert (Hr : r <> q ++ [c]) by (intros ->; congruence).
    rewrite Ed in H by assumption. destruct (mi_marker M Fr H) as (d & j' & Id & Ej). exists d, j'. split; [exact Id|].
    rewrite Ed; [exact Ej| |].
    + intros <-. congruence.
    + intros Y. apply app_inj_tail in Y as [-> _]. contradiction.
  - intros r d Id. destruct (Dec (r ++ [d]) (q ++ [c])) as [->|X]; [congruence|]. destruct (Dec (r ++ [d]) q) as [Y|Y].
    + destruct (PA r d (eq_sym Y)) as [_ H]. contradiction.
    + rewrite Ed by assumption. exact (@mi_names _ _ _ _ _ M r d Id).
  - intros r Fr. rewrite Ed; [exact (mi_zarr M Fr)| |].
    + intros Y. destruct (PA r _ (eq_sym Y)) as [_ H]. apply H. cbn; tauto.
    + intros Y. apply app_inj_tail in Y as [_ Y]. subst c. cbn in Ic. intuition discriminate.
Qed.

(** The document of a new group, before it is dumped. *)
Definition raw_doc (fmt : Z) : json :=
  if (fmt =? 3)%Z then JObj [("zarr_format", JInt 3); ("node_type", JStr "group"); ("attributes", JObj [])]%string
  else JObj [("zarr_format"%string, JInt fmt)].
Lemma raw_new fmt : reparse (raw_doc fmt) = snd (new_doc true fmt).
Proof using. unfold raw_doc, new_doc. destruct (fmt =? 3)%Z; reflexivity. Qed.
Lemma new_marker fmt : In (fst (new_doc true fmt)) markers.
Proof using. unfold new_doc. destruct (fmt =? 3)%Z; cbn; tauto. Qed.

Lemma new_step t s q m fmt : alike t s -> Forall plain_name q -> t (p ++ q ++ ["zarr.json"%string]) = None ->
  exists s', g_write_file_metadata (s3_io T (h q m)) true fmt s = (s', Ok tt) /\
    objects s' = put_key (place n (q ++ [fst (new_doc true fmt)])) (dump T (raw_doc fmt)) (objects s) /\ reliable s'.
Proof using.
  intros A0 F N. unfold g_write_file_metadata, raw_doc, new_doc. cbn [andb]. destruct (fmt =? 3)%Z; cbn [fst].
  - unfold g_write_v3_group, io_read_or. cbn [s3_io io_read io_write sh_name]. unfold abind. rewrite join_place.
    destruct (@read_step T p n s0 t s q "zarr.json" A0 F ltac:(cbn; tauto)) as (s1 & -> & O & R).
    unfold read_doc. rewrite <- app_assoc, N. unfold aret. cbn. destruct (put_step (place n (q ++ ["zarr.json"%string])) (dump T (JObj [("zarr_format", JInt 3); ("node_type", JStr "group"); ("attributes", JObj [])]%string)) R) as (s2 & E & O2 & R2).
    exists s2. unfold s3_write_json. rewrite E. rewrite O in O2. auto.
  - cbn [s3_io io_write sh_name]. unfold s3_write_json. rewrite join_place. destruct A0 as [_ [R _]]. apply put_step, R.
Qed.

Lemma dataset_step t s q m md j : alike t s -> Forall plain_name q -> t (p ++ q ++ ["zarr.json"%string]) = None -> md_zarr md = true -> to_json md = Ok j ->
  exists s', g_write_dataset_metadata (s3_io T (h q m)) md s = (s', Ok tt) /\
    objects s' = put_key (place n (q ++ [md_doc md])) (dump T j) (objects s) /\ reliable s'.
Proof using.
  intros A0 F N Z J. unfold g_write_dataset_metadata, md_doc. rewrite Z. cbn [andb]. cbn [s3_io io_read io_write sh_name]. destruct (md_format md =? 3)%Z.
  - unfold abind. rewrite join_place.
    destruct (@read_step T p n s0 t s q "zarr.json" A0 F ltac:(cbn; tauto)) as (s1 & -> & O & R).
    unfold read_doc. rewrite <- app_assoc, N. unfold aret. rewrite J. destruct (put_step (place n (q ++ ["zarr.json"%string])) (dump T j) R) as (s2 & E & O2 & R2).
    exists s2. unfold s3_write_json. rewrite E. rewrite O in O2. auto.
  - unfold abind, aret. rewrite J. unfold s3_write_json. rewrite join_place. destruct A0 as [_ [R _]]. apply put_step, R.
Qed.

Lemma alike_new t s q c j s' : alike t s -> Forall plain_name q -> In c markers ->
  t (p ++ q) = None -> way_free t (p ++ q) -> (forall q0 c0, q = q0 ++ [c0] -> t (p ++ q0) = Some NDir /\ ~ In c0 documents) ->
  objects s' = put_key (place n (q ++ [c])) (dump T j) (objects s) -> reliable s' -> alike (with_node t (p ++ q) c (reparse j)) s'.
Proof using TOK.
  intros [M [R O]] F I N W PA O' R'. split; [now apply mirror_new with s|]. split; [exact R'|].
  exact (@rest_put n s0 s s' q c _ O (plain_snoc F (document_plain (marker_document I))) O').
Qed.

(** Creating containers. *)
Lemma both_create_file t s m fmt : alike t s -> way_free t p -> no_file t p ->
  both (create_file (Handle p m) true fmt t) (s3_create_file T (h [] m) true fmt s).
Proof using TOK.
  intros A0 W NF. pose proof A0 as [M _]. unfold create_file, s3_create_file, file_create, s3_file_create. cbn [h_mode h_path sh_mode].
  unfold abind, fbind, fret, aret. destruct (can_create m) eqn:CC; cbn [negb]; [|now split].
  destruct (@exists_step T p n s0 t s [] m A0 ltac:(constructor)) as (s1 & E & O & R). rewrite app_nil_r in E. rewrite E.
  pose proof (alike_same A0 O R) as A1. unfold fs_exists, fs_isdir. destruct NF as [N|D].
  - rewrite N. assert (AB : forall q, below p q = true -> t q = None) by (intros q B; exact (@fs_ok_absent t p q (mi_fs M) N B)).
    pose proof (@create_file_new (Handle p m) true fmt t CC AB W) as CF. unfold create_file, file_create, fbind, fret in CF. cbn [h_mode h_path] in CF.
    rewrite CC in CF. cbn [negb] in CF. unfold fs_exists in CF. rewrite N in CF. rewrite CF. clear CF.
    destruct (@new_step t s1 [] m fmt A1 ltac:(constructor) (AB _ (below_app _ _))) as (s2 & E2 & O2 & R2). rewrite E2.
    split; [reflexivity|]. cbn [fst snd]. rewrite <- raw_new.
    pose proof (@alike_new t s1 [] (fst (new_doc true fmt)) (raw_doc fmt) s2 A1 ltac:(constructor) (new_marker fmt)) as K. rewrite app_nil_r in K.
    apply K; auto. intros q0 c0 X. now destruct q0.
  - rewrite D. now split.
Qed.

Lemma parent_way t q : fs_ok t -> t q = Some NDir -> forall c, way_free t (q ++ [c]).
Proof using.
  intros FS D c r B NE. right. apply below_parent in B; [|exact NE]. apply below_spec in B as [x ->]. destruct x as [|y x]; [now rewrite app_nil_r in D|].
  apply (@fs_ok_below t r (y :: x) FS); [congruence|discriminate].
Qed.

Lemma both_node_create t s q c m : alike t s -> Forall plain_name (q ++ [c]) -> no_file t (p ++ q ++ [c]) ->
  exists s1, objects s1 = objects s /\ reliable s1 /\
    (s3_node_create (h (q ++ [c]) m) s = (s1, Throw EInvalidArgument) /\ node_create (Handle (p ++ q ++ [c]) m) t = (t, Throw EInvalidArgument) \/
     s3_node_create (h (q ++ [c]) m) s = (s1, Ok tt) /\ t (p ++ q ++ [c]) = None /\
     node_create (Handle (p ++ q ++ [c]) m) t = fs_mkdirs (p ++ q ++ [c]) t).
Proof using.
  intros A0 F NF. unfold s3_node_create, node_create. cbn [h_mode h_path sh_mode]. destruct (is_mode_r m).
  - exists s. split; [reflexivity|]. split; [apply A0|]. left. split; reflexivity.
  - destruct (@exists_step T p n s0 t s (q ++ [c]) m A0 F) as (s1 & E & O & R). exists s1. split; [exact O|]. split; [exact R|].
    unfold abind, aret. rewrite E. unfold fs_isdir, fs_exists. destruct NF as [N|D].
    + rewrite N. right. auto.
    + rewrite D. left. split; reflexivity.
Qed.

Lemma both_create_group t s q c m fmt : alike t s -> Forall plain_name (q ++ [c]) -> is_node HGroup t (p ++ q) -> ~ In c documents -> no_file t (p ++ q ++ [c]) ->
  both (create_group (Handle (p ++ q) m) [c] fmt t) (s3_create_group T (h q m) c fmt s).
Proof using TOK.
  intros A0 F ND NI NF. assert (Fq : Forall plain_name q) by (now apply Forall_app in F). pose proof (node_zarr ND) as Z. cbn [handle_is_zarr] in Z.
  destruct ND as [D _]. unfold create_group, s3_create_group. cbn [h_path h_mode].
  destruct (@tells_zarr T p n s0 q Fq t HGroup m D s A0) as (s1 & E1 & O1 & R1). cbn [s3_handle_is_zarr handle_is_zarr] in E1.
  unfold abind, fbind, freading. rewrite E1, Z, child_place, <- app_assoc. pose proof (alike_same A0 O1 R1) as A1.
  destruct (@both_node_create t s1 q c m A1 F NF) as (s2 & O2 & R2 & [[-> ->]|[-> [N ->]]]).
  - split; [reflexivity|]. cbn [fst snd]. exact (alike_same A1 O2 R2).
  - pose proof (alike_same A1 O2 R2) as A2. pose proof A2 as [M _]. pose proof (mi_fs M) as FS.
    assert (W : way_free t (p ++ q ++ [c])) by (rewrite app_assoc; now apply parent_way).
    assert (D' : forall r, below r (p ++ q ++ [c]) = true -> t r = None \/ t r = Some NDir).
    { intros r B. destruct (path_eqb r (p ++ q ++ [c])) eqn:E; [apply path_eqb_eq in E; subst; now left|]. apply W; [exact B|].
      intros ->. now rewrite path_eqb_refl in E. }
    rewrite (mkdirs_run D').
    change (write_group_metadata (p ++ q ++ [c]) true fmt) with (write_file_metadata (p ++ q ++ [c]) true fmt).
    change (g_write_group_metadata (s3_io T (h (q ++ [c]) m)) true fmt) with (g_write_file_metadata (s3_io T (h (q ++ [c]) m)) true fmt).
    assert (AB : forall r, below (p ++ q ++ [c]) r = true -> t r = None) by (intros r B; exact (@fs_ok_absent t (p ++ q ++ [c]) r FS N B)).
    rewrite file_metadata_new; [|now rewrite below_refl|intros a; rewrite below_doc; apply AB, below_app].
    destruct (@new_step t s2 (q ++ [c]) m fmt A2 F) as (s4 & E4 & O4 & R4). { rewrite app_assoc. apply AB. apply below_app. }
    rewrite E4. split; [reflexivity|]. cbn [fst snd]. rewrite <- raw_new.
    apply (@alike_new t s2 (q ++ [c]) (fst (new_doc true fmt)) (raw_doc fmt) s4); auto; [apply new_marker|].
    intros q0 c0 X. apply app_inj_tail in X as [-> ->]. auto.
Qed.

Lemma create_zarr dt sh ch z cn o fill delim fmt enc shard md : create_metadata dt sh ch z cn o fill delim fmt enc shard = Ok md ->
  md_zarr md = z /\ md_delim md = delim /\ md_format md = fmt /\ md_enc md = enc /\ is_complex (md_dtype md) = false.
Proof using.
  unfold create_metadata. destruct (or_runtime (sat dt n5_to_dtype)) as [d|e|] eqn:DT; cbn [bind]; try discriminate.
  assert (C : is_complex d = false).
  { unfold sat, or_runtime in DT. cbn [sfind n5_to_dtype] in DT.
    repeat (destruct (String.eqb _ dt) in DT; [injection DT as <-; reflexivity|]). discriminate DT. }
  destruct (or_runtime (sat cn string_to_compressor)) as [k|e|]; cbn [bind]; try discriminate.
  match goal with |- bind ?a _ = _ -> _ => destruct a as [[]|e|] end; cbn [bind]; try discriminate.
  unfold check_shapes. destruct (_ =? _); [|discriminate]. intros [= <-]. auto.
Qed.

(** What both calls lead to, for answers that are compared after [f] and [g]. *)
Definition both2 {A B} (f g : A -> B) (x : fsys * outcome A) (y : s3 * outcome A) : Prop :=
  omap g (snd y) = omap f (snd x) /\ alike (fst x) (fst y).

Lemma both_create_dataset t s q c m dt sh ch cn o fill delim fmt enc shard : alike t s -> Forall plain_name (q ++ [c]) -> is_node HGroup t (p ++ q) ->
  ~ In c documents -> no_file t (p ++ q ++ [c]) ->
  (forall md, create_metadata dt sh ch true cn o fill delim fmt enc shard = Ok md -> exists j, to_json md = Ok j) ->
  both (amap (opened_at (p ++ q ++ [c])) (create_dataset (Handle (p ++ q) m) [c] dt sh ch cn o fill delim fmt enc shard) t)
       (amap (opened_at [place n (q ++ [c])]) (s3_create_dataset T (h q m) c dt sh ch cn o fill delim fmt enc shard) s).
Proof using TOK.
  intros A0 F ND NI NF MD. assert (Fq : Forall plain_name q) by (now apply Forall_app in F). pose proof (node_zarr ND) as Z. cbn [handle_is_zarr] in Z.
  match goal with |- both (amap ?f ?a ?t) (amap ?g ?b ?s) => change (both2 f g (a t) (b s)) end.
  destruct ND as [D _]. unfold create_dataset, s3_create_dataset. cbn [h_path h_mode].
  destruct (@tells_zarr T p n s0 q Fq t HGroup m D s A0) as (s1 & E1 & O1 & R1). cbn [s3_handle_is_zarr handle_is_zarr] in E1.
  unfold abind, fbind, freading, fret. rewrite E1, Z, child_place, <- app_assoc. pose proof (alike_same A0 O1 R1) as A1.
  destruct (create_metadata dt sh ch true cn o fill delim fmt enc shard) as [md|e|] eqn:CM; [|now split..].
  destruct (MD md eq_refl) as [j J]. destruct (create_zarr CM) as (MZ & MDl & MF & ME & CX).
  change (aret (Ok md) s1) with (s1, Ok md). cbv beta iota.
  unfold fs_create_dataset, fbind. cbn [h_path].
  destruct (@both_node_create t s1 q c m A1 F NF) as (s2 & O2 & R2 & [[-> ->]|[-> [N ->]]]).
  - split; [reflexivity|]. cbn [fst snd]. exact (alike_same A1 O2 R2).
  - pose proof (alike_same A1 O2 R2) as A2. pose proof A2 as [M _]. pose proof (mi_fs M) as FS.
    assert (W : way_free t (p ++ q ++ [c])) by (rewrite app_assoc; now apply parent_way).
    assert (D' : forall r, below r (p ++ q ++ [c]) = true -> t r = None \/ t r = Some NDir).
    { intros r B. destruct (path_eqb r (p ++ q ++ [c])) eqn:E; [apply path_eqb_eq in E; subst; now left|]. apply W; [exact B|].
      intros ->. now rewrite path_eqb_refl in E. }
    rewrite (mkdirs_run D').
    assert (AB : forall r, below (p ++ q ++ [c]) r = true -> t r = None) by (intros r B; exact (@fs_ok_absent t (p ++ q ++ [c]) r FS N B)).
    rewrite (@dataset_metadata_new _ (p ++ q ++ [c]) md j); [|now rewrite below_refl|intros a; rewrite below_doc; apply AB, below_app|exact J].
    destruct (@dataset_step t s2 (q ++ [c]) m md j A2 F) as (s4 & E4 & O4 & R4); [rewrite app_assoc; apply AB; apply below_app|exact MZ|exact J|].
    rewrite E4. unfold fret, aret. rewrite MDl, MF, ME. split; cbn [fst snd].
    + apply s3_make. exact CX.
    + apply (@alike_new t s2 (q ++ [c]) (md_doc md) j s4); auto.
      * unfold md_doc. rewrite MZ. destruct (_ =? _)%Z; cbn; tauto.
      * intros q0 c0 X. apply app_inj_tail in X as [-> ->]. auto.
Qed.

(** * Removing *)

Lemma both_remove_node t s q m : alike t s -> Forall plain_name q -> t (p ++ q) = Some NDir -> p ++ q <> [] ->
  both (node_remove (Handle (p ++ q) m) t) (s3_remove (h q m) s).
Proof using.
  intros [M [R RS]] F D NE. unfold node_remove. cbn [h_mode h_path]. destruct (can_write m) eqn:W; cbn [negb].
  - unfold fs_exists. rewrite D. cbn [negb]. destruct (@s3_remove_spec (h q m) s R W) as (s' & E & R' & L). cbn [sh_name] in L. rewrite E.
    split; [reflexivity|]. cbn [fst snd fs_remove_all].
    set (t' := fun r => if below (p ++ q) r then None else t r) in *.
    assert (Ln : forall k, lookup (objects s) k = None -> lookup (objects s') k = None).
    { intros k H. destruct (lookup (objects s') k) as [b|] eqn:X; [|reflexivity]. exfalso. destruct (L k) as [L1 L2].
      assert (I : inside (place n q) k \/ ~ inside (place n q) k).
      { change (place n q) with (sh_name (h q m)). rewrite <- node_prefix_inside. destruct (String.prefix _ _); [now left|now right]. }
      destruct I as [I|I]; [apply (L1 I); now exists b|]. rewrite L2 in X by exact I. congruence. }
    assert (Lk : forall k, held s' k -> held s k /\ ~ inside (place n q) k).
    { intros k H. assert (NI : ~ inside (place n q) k) by (intros I; exact (proj1 (L k) I H)). split; [|exact NI].
      destruct H as [b H]. exists b. rewrite <- (proj2 (L k) NI). exact H. }
    assert (Bl : forall r, below (p ++ q) (p ++ r) = true <-> exists x, r = q ++ x).
    { intros r. rewrite below_spec. split; intros [x X]; exists x.
      - rewrite <- app_assoc in X. now apply app_inv_head in X.
      - now rewrite X, <- app_assoc. }
    split; [|split; [exact R'|]].
    + constructor.
      * exact (@remove_fs_ok (p ++ q) t t' (mi_fs M) NE (fun _ => eq_refl)).
      * intros r d Fr. unfold t'. pose proof (@mi_files _ _ _ _ _ M r d Fr) as H. destruct (below (p ++ q) (p ++ r ++ [d])) eqn:B.
        -- apply Bl in B as [x X]. cbn [stored]. destruct x as [|y x].
           ++ rewrite app_nil_r in X. rewrite X in *. rewrite D in H. cbn [stored] in H. now apply Ln.
           ++ destruct (lookup (objects s') (place n (r ++ [d]))) as [b|] eqn:Y; [|reflexivity]. exfalso.
              apply (proj1 (L (place n (r ++ [d])))); [|now exists b]. rewrite X. apply inside_place_app; [now rewrite <- X|discriminate].
        -- destruct (t (p ++ r ++ [d])) as [[|j|b]|] eqn:Y; cbn [stored] in *; try (now apply Ln);
             (rewrite (proj2 (L (place n (r ++ [d])))); [exact H|]; intros I; apply inside_place in I; auto; [|now destruct r];
              destruct I as (x & _ & X); rewrite (proj2 (Bl (r ++ [d])) (ex_intro _ x X)) in B; discriminate).
      * intros k H K. apply Lk in H as [H _]. exact (mi_keys M H K).
      * intros r Fr H. unfold t' in H. destruct (below (p ++ q) (p ++ r)) eqn:B; [discriminate|].
        destruct (mi_marker M Fr H) as (d & j & Id & Ej). exists d, j. split; [exact Id|]. unfold t'.
        destruct (below (p ++ q) (p ++ r ++ [d])) eqn:B'; [|exact Ej]. exfalso. apply Bl in B' as [x X]. destruct x as [|y x].
        -- rewrite app_nil_r in X. rewrite X in Ej. congruence.
        -- destruct (@exists_last _ (y :: x)) as (x' & c0 & E'); [discriminate|]. rewrite E', app_assoc in X. apply app_inj_tail in X as [X _].
           rewrite (proj2 (Bl r) (ex_intro _ x' X)) in B. discriminate.
      * intros r d Id. unfold t'. destruct below; [discriminate|]. exact (@mi_names _ _ _ _ _ M r d Id).
      * intros r Fr. unfold t'. destruct below; [reflexivity|]. exact (mi_zarr M Fr).
    + intros k K. rewrite (proj2 (L k)); [exact (RS k K)|]. intros I. apply K. exact (inside_sub F I).
  - unfold s3_remove. cbn [sh_mode]. rewrite W. split; [reflexivity|]. split; auto.
Qed.
End Mirror.
