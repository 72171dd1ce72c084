(** Chunks in the tree of a container. *)
From Coq Require Import ZArith String.
From Verif Require Import M_Base P_Base M_Text M_Double M_Json M_Mode M_Key M_View M_Blocking M_Metadata S_Metadata M_Format M_Bytes M_Shard M_Dataset M_Sharded M_Access M_Store M_N5Header
  M_Fs M_Attributes S_Attributes P_Attributes M_Container S_Container P_Container P_Container2 P_Container3 M_Tree S_Text S_S3 S_Tree
  P_Key P_Dataset P_Store P_S3 P_S3Sim P_TreeSim P_PyGroup2 P_PyGroup11.
Import ListNotations.
Set Implicit Arguments.
Local Open Scope list_scope.
Local Open Scope N_scope.
Local Notation length := List.length.

(** ** Keys *)
Definition delim_ok (k : key_config) : Prop := k_zarr k = true -> good_separator (k_delim k) /\ fs_separator (k_delim k).
Definition n5_keys (k : key_config) : key_config := KeyConfig false "/" (k_format k) (k_encoding k).

Lemma key_path k ids : ids <> [] -> (k_zarr k = true -> fs_separator (k_delim k)) ->
  resolve (chunk_key k ids) = key_components k ids /\ Forall plain (key_components k ids).
Proof.
  intros N H. destruct k as [[] dl f e]; [apply resolve_chunk_key; auto|].
  apply (@resolve_chunk_key (n5_keys (KeyConfig false dl f e)) ids N). now left.
Qed.
Lemma key_prefix k ids ids' : ids <> [] -> length ids = length ids' -> delim_ok k ->
  path_prefix (resolve (chunk_key k ids)) (resolve (chunk_key k ids')) -> ids = ids'.
Proof.
  intros N L D. destruct k as [[] dl f e]; [destruct (D eq_refl); now apply chunk_paths_distinct|].
  apply (@chunk_paths_distinct (n5_keys (KeyConfig false dl f e)) ids ids' N L); [reflexivity|now left].
Qed.
Lemma key_nonempty k ids : ids <> [] -> delim_ok k -> resolve (chunk_key k ids) <> [].
Proof.
  intros N D E. destruct (@key_path k ids N (fun z => proj2 (D z))) as [E' _]. rewrite E' in E. unfold key_components in E. destruct (k_zarr k).
  - destruct (_ && _), (String.eqb _ _); try discriminate. destruct ids; [congruence|discriminate].
  - destruct ids; [congruence|]. cbn in E. rewrite map_app in E. destruct (map to_string (rev ids)); discriminate.
Qed.
Lemma climb_plain d cs : Forall plain cs -> climb d cs = d ++ cs.
Proof. intros H. destruct cs as [|c r]; cbn [climb]; [now rewrite app_nil_r|]. inversion H; subst. destruct (@plain_eqb c) as (_ & _ & ->); auto. Qed.
Lemma chunk_at_key p k ids : ids <> [] -> (k_zarr k = true -> fs_separator (k_delim k)) -> chunk_at p (chunk_key k ids) = p ++ resolve (chunk_key k ids).
Proof. intros N H. unfold chunk_at. destruct (@key_path k ids N H) as [-> F]. now apply climb_plain. Qed.
Lemma key_reserved k ids n rest : ids <> [] -> delim_ok k -> In n reserved_names -> resolve (chunk_key k ids) <> n :: rest.
Proof.
  intros N D. destruct k as [[] dl f e]; [destruct (D eq_refl); now apply chunk_path_reserved|].
  apply (@chunk_path_reserved (n5_keys (KeyConfig false dl f e)) ids n rest N). now left.
Qed.

Lemma removelast_app1 A (l : list A) x : removelast (l ++ [x]) = l.
Proof. rewrite removelast_app by discriminate. apply app_nil_r. Qed.
Lemma last_split A (l : list A) : l <> [] -> exists x, l = removelast l ++ [x].
Proof. intros H. destruct (exists_last H) as (l' & x & ->). exists x. now rewrite removelast_app1. Qed.

Section Object.
Variable o : opened.
Hypothesis ok : object_ok o.
Notation p := (op_path o).
Notation k := (op_keys o).
Notation n := (length (op_shape o)).
Notation at_ ids := (p ++ resolve (chunk_key k ids)).

Lemma keys_ok : delim_ok k.
Proof using ok. intros z. destruct (oo_delim ok z). auto. Qed.
Lemma ids_some (ids : shape) : length ids = n -> ids <> [].
Proof using ok. intros L ->. destruct (op_shape o) eqn:E; [now apply (oo_axes ok)|discriminate]. Qed.
Lemma at_key (ids : shape) : length ids = n -> chunk_at p (chunk_key k ids) = at_ ids.
Proof using ok. intros L. apply chunk_at_key; [now apply ids_some|]. intros z. now apply keys_ok. Qed.
Lemma at_prefix ids ids' r : length ids = n -> length ids' = n -> at_ ids' = at_ ids ++ r -> ids = ids'.
Proof using ok.
  intros L L' E. rewrite <- app_assoc in E. apply app_inv_head in E. apply (@key_prefix k); [now apply ids_some|congruence|apply keys_ok|]. now exists r.
Qed.
Lemma at_inj ids ids' : length ids = n -> length ids' = n -> at_ ids' = at_ ids -> ids = ids'.
Proof using ok. intros L L' E. apply (@at_prefix ids ids' []); auto. now rewrite app_nil_r. Qed.
Lemma at_below ids : length ids = n -> exists a r, resolve (chunk_key k ids) = r ++ [a] /\ at_ ids = (p ++ r) ++ [a] /\ removelast (at_ ids) = p ++ r.
Proof using ok.
  intros L. destruct (last_split (@key_nonempty k ids (ids_some L) keys_ok)) as [a E]. exists a, (removelast (resolve (chunk_key k ids))).
  split; [exact E|]. rewrite E at 1. rewrite app_assoc. split; [reflexivity|]. rewrite E at 1. now rewrite app_assoc, removelast_app1.
Qed.

(** Above the place of a chunk: on the way to the dataset, its directory, or a
    directory of chunks. *)
Lemma parent_cases ids q : length ids = n -> below q (removelast (at_ ids)) = true -> below q p = true \/ chunk_dir o q.
Proof using ok.
  intros L B. destruct (at_below L) as (a & r & E & E1 & E2). rewrite E2 in B. destruct (below q p) eqn:Bp; [now left|right].
  apply below_spec in B. destruct B as [x Hx].
  assert (P : below p (p ++ r) = true) by apply below_app. destruct (@below_both q p (p ++ r)) as [C|C]; [rewrite Hx; apply below_app|exact P|congruence|].
  split; [intros ->; now rewrite below_refl in Bp|]. apply below_spec in C. destruct C as [y Hy].
  exists ids. destruct x as [|b x].
  - exists a, []. split; [exact L|]. rewrite app_nil_r in Hx. split; [congruence|]. exists y. congruence.
  - exists b, (x ++ [a]). split; [exact L|]. split; [rewrite E1, Hx, <- app_assoc; reflexivity|]. exists y. congruence.
Qed.
Lemma dir_not_place ids q : length ids = n -> chunk_dir o q -> q <> at_ ids.
Proof using ok.
  intros L (N & ids' & a & r & L' & E & _) ->. pose proof (@at_prefix ids ids' (a :: r) L L' E). subst ids'.
  rewrite <- (app_nil_r (at_ ids)) in E at 1. apply app_inv_head in E. discriminate.
Qed.
Lemma place_not_above ids : length ids = n -> forall ids', length ids' = n -> below (at_ ids') (removelast (at_ ids)) = false.
Proof using ok.
  intros L ids' L'. destruct (below _ _) eqn:B; [|reflexivity]. exfalso. destruct (@parent_cases ids (at_ ids') L B) as [C|C].
  - apply below_spec in C. destruct C as [x Hx]. rewrite <- (app_nil_r p) in Hx at 1. rewrite <- app_assoc in Hx. apply app_inv_head in Hx.
    symmetry in Hx. apply app_eq_nil in Hx. now apply (@key_nonempty k ids' (ids_some L') keys_ok).
  - now apply (@dir_not_place ids' (at_ ids') L').
Qed.
Lemma place_not_dir ids : length ids = n -> at_ ids <> p.
Proof using ok. intros L E. rewrite <- (app_nil_r p) in E at 2. apply app_inv_head in E. now apply (@key_nonempty k ids (ids_some L) keys_ok). Qed.

Variable t0 : fsys.
(** What calls on the dataset leave alone. *)
Definition shows (st : store) (t : fsys) : Prop := dataset_place o t /\ same_chunks o st (files_at p t) /\ only_chunks o t0 t.
Notation rel := (rel shows (fun _ => False) (fun _ => True)).

Lemma shows_file st t ids : length ids = n -> shows st t ->
  t (at_ ids) = match st (chunk_key k ids) with None => None | Some b => Some (NBlob b) end.
Proof using ok.
  intros L (D & C & _). rewrite (C ids L). unfold files_at. destruct (dp_chunks D (ex_intro _ ids (conj L eq_refl))) as [E|[b E]]; now rewrite E.
Qed.

Lemma shows_set st t ids v (t' : fsys) : length ids = n -> shows st t ->
  (forall q, t' q = if path_eqb q (at_ ids) then match v with None => None | Some b => Some (NBlob b) end else t q) ->
  (v <> None -> t (removelast (at_ ids)) = Some NDir) -> shows (set_key st (chunk_key k ids) v) t'.
Proof using ok.
  intros L SH T P. pose proof SH as (D & C & F). destruct (at_below L) as (a & r & E & E1 & E2).
  assert (Other : forall q, q <> at_ ids -> t' q = t q) by (intros q N; rewrite T, path_eqb_ne; auto).
  assert (Here : t' (at_ ids) = match v with None => None | Some b => Some (NBlob b) end) by now rewrite T, path_eqb_refl.
  split; [|split].
  - constructor.
    + split.
      * rewrite Other; [apply (proj1 (dp_fs D))|]. rewrite E1. intros H. symmetry in H. now apply app_eq_nil in H.
      * intros q b H. destruct (path_eqb (q ++ [b]) (at_ ids)) eqn:Q.
        -- apply path_eqb_eq in Q. rewrite Q, Here in H. rewrite E1 in Q. apply app_inj_tail in Q. destruct Q as [-> ->].
           rewrite Other; [rewrite <- E2; apply P; intros ->; now apply H|]. rewrite E1. intros X. apply (f_equal (@List.length _)) in X. rewrite !app_length in X. cbn in X. lia.
        -- rewrite T, Q in H. pose proof (proj2 (dp_fs D) q b H) as X. rewrite Other; [exact X|]. intros ->.
           destruct (dp_chunks D (ex_intro _ ids (conj L eq_refl))) as [Y|[z Y]]; congruence.
    + rewrite Other; [apply (dp_dir D)|]. intros X. symmetry in X. revert X. now apply place_not_dir.
    + intros q Hq. destruct (path_eqb q (at_ ids)) eqn:Q; rewrite T, Q; [destruct v; eauto|]. now apply (dp_chunks D).
    + intros q Hq. rewrite Other; [now apply (dp_dirs D)|]. now apply dir_not_place.
  - intros ids' L'. unfold set_key, files_at. destruct (path_eqb (at_ ids') (at_ ids)) eqn:Q.
    + rewrite T, Q. apply path_eqb_eq in Q. rewrite (at_inj L L' Q), String.eqb_refl. now destruct v.
    + rewrite T, Q. destruct (String.eqb_spec (chunk_key k ids') (chunk_key k ids)) as [X|_]; [rewrite X, path_eqb_refl in Q; discriminate|]. exact (C ids' L').
  - intros q. destruct (path_eqb q (at_ ids)) eqn:Q; [apply path_eqb_eq in Q; right; left; exists ids; auto|].
    rewrite T, Q. apply F.
Qed.

Lemma above_dir st t q : shows st t -> below q p = true -> t q = Some NDir.
Proof. intros (D & _) B. apply (@dirs_above t p q (dp_fs D) (dp_dir D) B). Qed.
Lemma way_open st t ids q : length ids = n -> shows st t -> below q (removelast (at_ ids)) = true -> t q = None \/ t q = Some NDir.
Proof using ok.
  intros L SH B. destruct (@parent_cases ids q L B) as [C|C]; [right; now apply (@above_dir st t q)|]. destruct SH as (D & _). now apply (dp_dirs D).
Qed.

Lemma shows_mkdirs st t ids : length ids = n -> shows st t ->
  shows st (fst (fs_mkdirs (removelast (at_ ids)) t)) /\ fst (fs_mkdirs (removelast (at_ ids)) t) (removelast (at_ ids)) = Some NDir.
Proof using ok.
  intros L SH. pose proof (@mkdirs_run t (removelast (at_ ids)) (fun q => @way_open st t ids q L SH)) as E.
  destruct (mkdirs_ok (dp_fs (proj1 SH)) E) as [F' T]. rewrite E. cbn [fst]. split; [|now rewrite below_refl].
  pose proof SH as (D & C & F).
  assert (Pl : forall ids', length ids' = n -> below (at_ ids') (removelast (at_ ids)) = false) by now apply place_not_above.
  split; [|split].
  - constructor.
    + exact F'.
    + destruct (below p _); [reflexivity|apply (dp_dir D)].
    + intros q (ids' & L' & ->). rewrite Pl by exact L'. apply (dp_chunks D). now exists ids'.
    + intros q Hq. destruct (below q _); [now right|now apply (dp_dirs D)].
  - intros ids' L'. unfold files_at. rewrite Pl by exact L'. exact (C ids' L').
  - intros q. destruct (below q _) eqn:B; [|apply F]. destruct (@parent_cases ids q L B) as [X|X].
    + left. rewrite <- (@above_dir st t q SH X). destruct (F q) as [Y|[(ids' & L' & ->)|(Y & _)]]; [exact Y| |].
      * rewrite Pl in B by exact L'. discriminate.
      * exfalso. destruct Y as (N & _ & _ & _ & _ & _ & z & Hz). apply N. apply below_antisym; [exact X|]. rewrite Hz. apply below_app.
    + destruct (F q) as [Y|[Y|(_ & Y & _)]]; [|now right; left|right; right; auto].
      destruct (dp_dirs D X) as [Z|Z]; [right; right|left]; repeat split; try congruence; apply X.
Qed.

(** ** The store of the dataset *)
Variable T : json -> bytes.
Notation TP := (tree_policy T p).

Lemma rel_tree_read (ids : shape) : length ids = n -> rel (p_read fs_policy (chunk_key k ids)) (p_read TP (chunk_key k ids)).
Proof using ok.
  intros L st t SH. left. cbn [p_read fs_policy tree_policy]. unfold tree_read, store_read. cbn [fst snd]. split; [exact SH|].
  rewrite (at_key L), (shows_file L SH). now destruct (st (chunk_key k ids)).
Qed.
Lemma rel_tree_exists (ids : shape) : length ids = n -> rel (p_exists fs_policy (chunk_key k ids)) (p_exists TP (chunk_key k ids)).
Proof using ok.
  intros L st t SH. left. cbn [p_exists fs_policy tree_policy fst snd]. split; [exact SH|]. unfold fs_exists.
  rewrite (at_key L), (shows_file L SH). now destruct (st (chunk_key k ids)).
Qed.

Lemma tree_create_shows st t (ids : shape) : length ids = n -> shows st t ->
  snd (tree_create p k (chunk_key k ids) t) = Ok tt /\
  shows st (fst (tree_create p k (chunk_key k ids) t)) /\ fst (tree_create p k (chunk_key k ids) t) (removelast (at_ ids)) = Some NDir.
Proof using ok.
  intros L SH. unfold tree_create. rewrite (at_key L). destruct (k_zarr k && negb (String.eqb (k_delim k) "/"))%bool eqn:Z.
  - cbn [fst snd]. split; [reflexivity|]. split; [exact SH|]. apply andb_prop in Z. destruct Z as [Z D].
    destruct (at_below L) as (a & r & E & _ & ->). destruct (@key_path k ids (ids_some L) (fun z => proj2 (keys_ok z))) as [E' _]. rewrite E in E'.
    unfold key_components in E'. rewrite Z in E'. apply negb_true_iff in D. rewrite D in E'. destruct r as [|x r].
    + rewrite app_nil_r. apply (dp_dir (proj1 SH)).
    + apply (f_equal (@List.length _)) in E'. destruct (_ && _)%bool; cbn in E'; rewrite app_length in E'; cbn in E'; lia.
  - destruct (fs_exists t (removelast (at_ ids))) eqn:X; cbn [fst snd].
    + split; [reflexivity|]. split; [exact SH|]. destruct (@way_open st t ids (removelast (at_ ids)) L SH (below_refl _)) as [Y|Y]; [|exact Y].
      unfold fs_exists in X. rewrite Y in X. discriminate.
    + split; [reflexivity|]. now apply shows_mkdirs.
Qed.

Lemma no_slash (ids : shape) : length ids = n -> (k_zarr k && negb (String.eqb (k_delim k) "/") && slash_in (chunk_key k ids))%bool = false.
Proof using ok.
  intros L. destruct (k_zarr k) eqn:Z; [|reflexivity]. destruct (String.eqb_spec (k_delim k) "/") as [E|N]; [reflexivity|]. cbn [negb andb].
  apply slash_in_free, chunk_key_slash_free; [exact Z|]. destruct (oo_delim ok Z) as [_ [E|E]]; congruence.
Qed.

Lemma rel_tree_write (ids : shape) b : length ids = n -> rel (p_write fs_policy k (chunk_key k ids) b) (p_write TP k (chunk_key k ids) b).
Proof using ok.
  intros L st t SH. left. cbn [p_write fs_policy tree_policy]. unfold store_write. rewrite (no_slash L).
  unfold tree_write, abind. destruct (tree_create_shows L SH) as (E & SH' & Dir). destruct (tree_create p k (chunk_key k ids) t) as [t1 r]. cbn [fst snd] in *. subst r.
  unfold tree_write_file. rewrite (at_key L). unfold fs_isdir. rewrite Dir, (shows_file L SH').
  replace (match match st (chunk_key k ids) with Some b0 => Some (NBlob b0) | None => None end with Some NDir => true | _ => false end) with false by now destruct (st _).
  cbn [andb negb fst snd]. split; [|reflexivity]. apply (@shows_set st t1 ids (Some b)); auto.
Qed.
Lemma rel_tree_remove (ids : shape) : length ids = n -> rel (p_remove fs_policy (chunk_key k ids)) (p_remove TP (chunk_key k ids)).
Proof using ok.
  intros L st t SH. left. cbn [p_remove fs_policy tree_policy]. unfold store_erase, tree_remove. rewrite (at_key L).
  assert (H : shows (set_key st (chunk_key k ids) None) (fun q => if path_eqb q (at_ ids) then None else t q))
    by (apply (@shows_set st t ids None); auto; congruence).
  rewrite (shows_file L SH). destruct (st (chunk_key k ids)); cbn [fst snd]; auto.
Qed.
Lemma rel_tree_erase (ids : shape) : length ids = n -> rel (p_erase fs_policy (chunk_key k ids)) (p_erase TP (chunk_key k ids)).
Proof using ok.
  intros L st t SH. cbn [p_erase tree_policy]. unfold tree_erase. destruct (fs_exists t _) eqn:X; [now apply (rel_tree_remove L)|].
  left. cbn [p_erase fs_policy fst snd]. unfold store_erase. cbn [fst snd]. split; [|reflexivity]. apply (@shows_set st t ids None t L SH); [|congruence].
  intros q. destruct (path_eqb q (at_ ids)) eqn:Q; [|reflexivity]. apply path_eqb_eq in Q. subst q. unfold fs_exists in X. rewrite (at_key L) in X. now destruct (t (at_ ids)).
Qed.
End Object.

(** ** Calls *)
Lemma rel_ext S1 S2 (R : S1 -> S2 -> Prop) e I A (a1 a1' : act S1 A) (a2 : act S2 A) : (forall s, a1 s = a1' s) -> rel R e I a1 a2 -> rel R e I a1' a2.
Proof. intros E H s1 s2 HR. rewrite <- E. now apply H. Qed.

Lemma tree_sim M o t0 c : object_ok o -> fitting o c -> rel (shows o t0) (fun _ => False) (fun _ => True) (alone_call M o c) (tree_call M o c).
Proof.
  intros ok F. unfold alone_call, tree_call. destruct (op_shard o) eqn:Es.
  - apply rel_ext with (call fs_policy (array_of M o) c); [apply fs_call_eq|].
    apply sim_call with (k := op_keys o) (n := length (op_shape o)); auto; intros.
    + now apply rel_tree_read.
    + now apply rel_tree_write.
    + now apply rel_tree_erase.
    + now apply rel_tree_remove.
    + apply (oo_chunks ok).
    + now apply rel_tree_exists.
  - apply rel_bind_ret. intros sd E. apply rel_ext with (sh_call fs_policy sd c); [apply fs_sh_call_eq|].
    unfold open_sharded in E. destruct (chunks_per_shard _ _) as [cps| |] eqn:Ec; try discriminate. injection E as <-.
    assert (Z : k_zarr (op_keys o) = true) by (apply (oo_sharded ok); rewrite Es; discriminate).
    apply sim_sh_call with (k := op_keys o) (n := length (op_shape o)); auto; intros.
    + now apply rel_tree_read.
    + now apply rel_tree_write.
    + now apply rel_tree_erase.
    + now apply rel_tree_remove.
    + cbn. destruct (op_keys o). cbn in *. now rewrite Z.
    + apply (oo_chunks ok).
Qed.
