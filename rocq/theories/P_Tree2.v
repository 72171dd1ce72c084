(** A dataset among the other nodes of a container. *)
From Coq Require Import ZArith String.
From Verif Require Import M_Base P_Base M_Text M_Double M_Json M_Mode M_Key M_View M_Blocking M_Metadata S_Metadata M_Format M_Bytes M_Shard M_Dataset M_Sharded M_Access M_Store M_N5Header
  M_Fs M_Attributes S_Attributes P_Attributes M_Container S_Container P_Container P_Container2 P_Container3 M_Tree S_Text S_S3 S_Tree
  P_Key P_Dataset P_Store P_S3 P_S3Sim P_TreeSim P_Tree P_PyGroup2 P_PyGroup11.
Import ListNotations.
Set Implicit Arguments.
Local Open Scope list_scope.
Local Open Scope N_scope.
Local Notation length := List.length.

(** Chunks of variable length are recognised. *)
Lemma tree_varlen M o ids t st : object_ok o -> length ids = length (op_shape o) -> dataset_place o t ->
  same_chunks o st (files_at (op_path o) t) ->
  g_check_varlen (tree_policy (m_text M) (op_path o)) (array_of M o) ids t = (t, check_varlen_chunk (array_of M o) st ids).
Proof.
  intros ok L D C. assert (SH : shows o t st t) by (split; [exact D|]; split; [exact C|]; intros q; now left).
  unfold g_check_varlen, check_varlen_chunk. rewrite abind_ret.
  destruct (chunk_handle_of _ _ _) as [h| |] eqn:E; cbn [bind]; try reflexivity.
  rewrite (handle_key E). cbn [p_headers tree_policy]. destruct (d_zarr (array_of M o)); [reflexivity|].
  unfold abind. cbn [p_exists p_header tree_policy]. unfold fs_exists. change (d_key (array_of M o)) with (op_keys o).
  rewrite (at_key ok L), (shows_file ok L SH). destruct (st (chunk_key (op_keys o) ids)) as [b|] eqn:Es; cbn [negb]; [|reflexivity].
  rewrite (shows_file ok L SH), Es. cbn [file_bytes]. destruct (read_varlen_from_header b); reflexivity.
Qed.

Theorem tree_call_alone M o c t st : object_ok o -> fitting o c -> dataset_place o t -> same_chunks o st (files_at (op_path o) t) ->
  let '(st', a) := alone_call M o c st in
  let '(t', a') := tree_call M o c t in
  a' = a /\ dataset_place o t' /\ same_chunks o st' (files_at (op_path o) t') /\ only_chunks o t t'.
Proof.
  intros ok F D C. destruct (@tree_sim M o t c ok F st t) as [[(D' & C' & K) E]|(? & [] & _)].
  - split; [exact D|]. split; [exact C|]. intros q. now left.
  - destruct (alone_call M o c st), (tree_call M o c t). auto.
Qed.

(** ** Another object for the dataset *)
Lemma grid_place o o' q : same_grid o o' -> chunk_place o' q <-> chunk_place o q.
Proof. intros G. unfold chunk_place. rewrite (sg_shape G), (sg_path G). split; intros (ids & L & E); exists ids; [rewrite <- (sg_keys G)|rewrite (sg_keys G)]; auto. Qed.
Lemma grid_dir o o' q : same_grid o o' -> chunk_dir o' q <-> chunk_dir o q.
Proof.
  intros G. unfold chunk_dir. rewrite (sg_shape G), (sg_path G).
  split; intros (N & ids & a & r & L & E & P); (split; [exact N|]); exists ids, a, r; [rewrite <- (sg_keys G)|rewrite (sg_keys G)]; auto.
Qed.
Lemma grid_dataset o o' t : same_grid o o' -> dataset_place o' t <-> dataset_place o t.
Proof.
  intros G. split; intros D; constructor.
  - apply (dp_fs D).
  - rewrite <- (sg_path G). apply (dp_dir D).
  - intros q H. apply (dp_chunks D). now apply (grid_place q G).
  - intros q H. apply (dp_dirs D). now apply (grid_dir q G).
  - apply (dp_fs D).
  - rewrite (sg_path G). apply (dp_dir D).
  - intros q H. apply (dp_chunks D). now apply (grid_place q G).
  - intros q H. apply (dp_dirs D). now apply (grid_dir q G).
Qed.
Lemma grid_chunks o o' a b : same_grid o o' -> same_chunks o' a b <-> same_chunks o a b.
Proof. intros G. unfold same_chunks. rewrite (sg_shape G). split; intros H ids L; [rewrite <- (sg_keys G)|rewrite (sg_keys G)]; auto. Qed.
Lemma grid_only o o' t t' : same_grid o o' -> only_chunks o' t t' -> only_chunks o t t'.
Proof.
  intros G H q. destruct (H q) as [E|[E|(E & X)]]; [now left|right; left; now apply (grid_place q G)|right; right]. split; [now apply (grid_dir q G)|exact X].
Qed.
Lemma grid_fitting o o' c : same_grid o o' -> fitting o' c <-> fitting o c.
Proof. intros G. unfold fitting. now rewrite (sg_shape G). Qed.

(** ** Calls elsewhere *)
Section Elsewhere.
Variable o : opened.
Hypothesis ok : object_ok o.
Notation p := (op_path o).
Definition mine (q : path) : Prop := q = p \/ chunk_place o q \/ chunk_dir o q.
Definition untouched (t t' : fsys) : Prop := fs_ok t' /\ forall q, mine q -> t' q = t q.
Definition unharmed (t t' : fsys) : Prop := fs_ok t -> t p = Some NDir -> untouched t t'.
Lemma unharmed_refl t : unharmed t t.
Proof. split; auto. Qed.
Lemma unharmed_trans t1 t2 t3 : unharmed t1 t2 -> unharmed t2 t3 -> unharmed t1 t3.
Proof.
  intros H1 H2 F D. destruct (H1 F D) as [F2 E2]. destruct (H2 F2) as [F3 E3]; [rewrite E2; [exact D|now left]|].
  split; [exact F3|]. intros q Q. rewrite E3, E2; auto.
Qed.

Lemma mine_split q : mine q -> q = p \/ exists x r, q = p ++ x :: r /\ ~ In x reserved_names.
Proof using ok.
  intros [E|[(ids & L & E)|(N & ids & a & r & L & E & [y Hy])]]; [now left|right|right].
  - destruct (resolve (chunk_key (op_keys o) ids)) as [|x r] eqn:X; [now apply (@key_nonempty (op_keys o) ids (ids_some ok L) (keys_ok ok)) in X|].
    exists x, r. split; [exact E|]. intros I. apply (@key_reserved (op_keys o) ids x r (ids_some ok L) (keys_ok ok) I X).
  - destruct y as [|x y]; [now rewrite app_nil_r in Hy|]. exists x, y. split; [exact Hy|]. intros I. rewrite Hy, <- app_assoc in E. apply app_inv_head in E.
    apply (@key_reserved (op_keys o) ids x (y ++ a :: r) (ids_some ok L) (keys_ok ok) I E).
Qed.
Lemma mine_below q : mine q -> below p q = true.
Proof using ok. intros H. destruct (mine_split H) as [->|(x & r & -> & _)]; [apply below_refl|apply below_app]. Qed.

Lemma same_place t t' : dataset_place o t -> untouched t t' -> dataset_place o t'.
Proof.
  intros D [F E]. constructor; [exact F| | |].
  - rewrite E; [apply (dp_dir D)|now left].
  - intros q Q. rewrite E; [now apply (dp_chunks D)|unfold mine; auto].
  - intros q Q. rewrite E; [now apply (dp_dirs D)|unfold mine; auto].
Qed.
Lemma same_files t t' st : untouched t t' -> same_chunks o st (files_at p t) -> same_chunks o st (files_at p t').
Proof.
  intros [F E] C ids L. rewrite (C ids L). unfold files_at. rewrite E; [reflexivity|]. right. left. now exists ids.
Qed.

Lemma node_unharmed m c t : elsewhere o (ONode m c) -> unharmed t (fst (run_ccall m c t)).
Proof using ok.
  intros El F Dir. split.
  { apply ccall_tree; [exact F|]. intros q -> ->. cbn in El. destruct El as [_ X]. cbn in X. discriminate. }
  assert (H : unharmed t (fst (run_ccall m c t))); [|now apply H].
  assert (NI : not_inside p (target c)) by (destruct c; cbn [elsewhere target] in El |- *; try exact El; left; apply El).
  apply (@framed_ccall unharmed unharmed_refl unharmed_trans (target c)); auto.
  - intros name j I s Fs Ds. split; [now apply write_doc_tree|]. intros q Q. unfold write_doc.
    destruct (fs_isdir s (target c) && negb (fs_isdir s (target c ++ [name]))) eqn:B; [|reflexivity]. cbn [fst].
    apply andb_prop in B. destruct B as [_ B]. destruct (path_eqb q (target c ++ [name])) eqn:X; [|reflexivity]. apply path_eqb_eq in X. exfalso.
    destruct (mine_split Q) as [Y|(x & r & Y & NR)].
    + rewrite <- X, Y in B. unfold fs_isdir in B. now rewrite Ds in B.
    + rewrite Y in X. destruct (exists_last (l := x :: r)) as (l & z & E); [discriminate|]. rewrite E, app_assoc in X. apply app_inj_tail in X. destruct X as [X ->].
      destruct l as [|x' l]; [cbn in E; injection E as -> ->; contradiction|].
      destruct NI as [N|N]; [rewrite <- X, below_app in N; discriminate|].
      rewrite N in X. apply (f_equal (@List.length _)) in X. rewrite !app_length in X. cbn in X. lia.
  - intros s N Fs Ds. assert (T : target c <> p) by congruence. destruct NI as [NI|NI]; [|contradiction].
    destruct (fs_mkdirs (target c) s) as [s1 r] eqn:E. unfold fs_mkdirs in E. destruct existsb eqn:X; injection E as <- <-; cbn [fst]; [split; auto|].
    assert (M : fs_mkdirs (target c) s = ((fun q => if below q (target c) then Some NDir else s q), Ok tt)) by (unfold fs_mkdirs; now rewrite X).
    split; [apply (mkdirs_ok Fs M)|]. intros q Q. destruct (below q (target c)) eqn:B; [|reflexivity]. rewrite (below_trans (mine_below Q) B) in NI. discriminate.
  - intros E s Fs Ds. rewrite E in El. cbn [elsewhere] in El. destruct El as [A1 A2].
    split.
    + apply (@remove_fs_ok (target c) s); [assumption| |reflexivity]. intros Z. rewrite Z in A2. discriminate.
    + intros q Q. cbn [fs_remove_all fst]. destruct (below (target c) q) eqn:B; [|reflexivity].
      destruct (below_both (mine_below Q) B) as [Y|Y]; congruence.
Qed.

(** Data of other datasets. *)
Lemma chunk_inside p2 k (ids : shape) : (k_zarr k = true -> fs_separator (k_delim k)) -> below p2 (chunk_at p2 (chunk_key k ids)) = true.
Proof.
  intros H. destruct ids as [|i r].
  - unfold chunk_at, chunk_key. destruct (k_zarr k); [destruct (_ && _)|]; cbn; rewrite ?app_nil_r; first [apply below_refl|apply below_app].
  - rewrite chunk_at_key; [apply below_app|discriminate|exact H].
Qed.
Lemma below_removelast (q : path) : below (removelast q) q = true.
Proof. destruct q as [|a q]; [reflexivity|]. destruct (last_split (l := a :: q)) as [x E]; [discriminate|]. rewrite E at 2. apply below_app. Qed.

Section Data.
Variables (T : json -> bytes) (p2 : path).
Hypothesis ap : apart p p2.

Lemma mine_apart q c : mine q -> below p2 c = true -> below q c = false.
Proof using ok ap.
  intros Q B. destruct (below q c) eqn:X; [|reflexivity]. exfalso. destruct ap as [A1 A2]. pose proof (mine_below Q) as P.
  destruct (below_both (below_trans P X) B); congruence.
Qed.
Lemma mine_not q c : mine q -> below p2 c = true -> q <> c.
Proof using ok ap. intros Q B ->. pose proof (mine_apart Q B) as X. now rewrite below_refl in X. Qed.

Lemma set_tree (t : fsys) (c : path) v : fs_ok t -> t (removelast c) = Some NDir -> t c <> Some NDir -> fs_ok (fun q => if path_eqb q c then v else t q).
Proof.
  intros F D N. destruct c as [|a c]; [now elim N|]. destruct (last_split (l := a :: c)) as [x E]; [discriminate|]. set (c' := a :: c) in *. set (d := removelast c') in *.
  rewrite E in N |- *. clearbody d. split.
  - rewrite path_eqb_ne; [apply F|]. intros X. symmetry in X. now apply app_eq_nil in X.
  - intros q b. destruct (path_eqb (q ++ [b]) (d ++ [x])) eqn:X.
    + intros _. apply path_eqb_eq in X. apply app_inj_tail in X. destruct X as [-> ->]. rewrite path_eqb_ne; [exact D|].
      intros X. apply (f_equal (@List.length _)) in X. rewrite app_length in X. cbn in X. lia.
    + intros H. pose proof (proj2 F q b H) as Y. destruct (path_eqb q (d ++ [x])) eqn:Z; [|exact Y]. apply path_eqb_eq in Z. subst q. contradiction.
Qed.
Lemma unset_tree (t : fsys) (c : path) : fs_ok t -> t c <> Some NDir -> fs_ok (fun q => if path_eqb q c then None else t q).
Proof.
  intros F N. destruct (t c) as [v|] eqn:E.
  - destruct c as [|a c]; [rewrite (proj1 F) in E; congruence|]. destruct (last_split (l := a :: c)) as [x X]; [discriminate|].
    apply set_tree; [exact F| |congruence]. apply (proj2 F _ x). rewrite <- X, E. discriminate.
  - assert (H : forall q, (if path_eqb q c then None else t q) = t q) by (intros q; destruct (path_eqb q c) eqn:X; [apply path_eqb_eq in X; congruence|reflexivity]).
    split; [rewrite H; apply F|]. intros q b. rewrite !H. apply F.
Qed.

Lemma create_unharmed k key t : below p2 (chunk_at p2 key) = true -> unharmed t (fst (tree_create p2 k key t)).
Proof using ok ap.
  intros B. unfold tree_create. destruct (_ && _)%bool; [apply unharmed_refl|]. destruct (fs_exists _ _); [apply unharmed_refl|]. cbn [fst].
  intros F Dir. set (d := removelast (chunk_at p2 key)).
  destruct (fs_mkdirs d t) as [s1 r] eqn:E. unfold fs_mkdirs in E. destruct existsb eqn:X; injection E as <- <-; cbn [fst]; [split; auto|].
  assert (M : fs_mkdirs d t = ((fun q => if below q d then Some NDir else t q), Ok tt)) by (unfold fs_mkdirs; now rewrite X).
  split; [apply (mkdirs_ok F M)|]. intros q Q. destruct (below q d) eqn:Y; [|reflexivity].
  pose proof (below_trans Y (below_removelast (chunk_at p2 key))) as Z. rewrite (mine_apart Q B) in Z. discriminate.
Qed.
Lemma write_unharmed key b t : below p2 (chunk_at p2 key) = true -> unharmed t (fst (tree_write_file p2 key b t)).
Proof using ok ap.
  intros B. unfold tree_write_file. destruct (_ && _)%bool eqn:X; [|apply unharmed_refl]. cbn [fst]. apply andb_prop in X. destruct X as [X1 X2].
  intros F Dir. split.
  - apply set_tree; [exact F| |].
    + unfold fs_isdir in X1. destruct (t (removelast _)) as [[| |]|]; congruence.
    + intros E. unfold fs_isdir in X2. now rewrite E in X2.
  - intros q Q. rewrite path_eqb_ne; [reflexivity|now apply mine_not].
Qed.
Lemma remove_unharmed key t : below p2 (chunk_at p2 key) = true -> unharmed t (fst (tree_remove p2 key t)).
Proof using ok ap.
  intros B. unfold tree_remove. intros F Dir.
  assert (H : t (chunk_at p2 key) <> Some NDir -> untouched t (fun q => if path_eqb q (chunk_at p2 key) then None else t q)).
  { intros N. split; [now apply unset_tree|]. intros q Q. rewrite path_eqb_ne; [reflexivity|now apply mine_not]. }
  destruct (t (chunk_at p2 key)) as [[| |]|] eqn:E; cbn [fst]; try (apply H; congruence). split; auto.
Qed.

Variable k : key_config.
Hypothesis sep : k_zarr k = true -> fs_separator (k_delim k).
Variable t0 : fsys.
Definition along (t1 t2 : fsys) : Prop := t1 = t2 /\ unharmed t0 t1.
Notation same a := (rel along (fun _ => False) (fun _ => True) a a).
Lemma same_act A (a : act fsys A) : (forall t, unharmed t (fst (a t))) -> same a.
Proof. intros H t1 t2 [-> U]. left. split; [|reflexivity]. split; [reflexivity|]. eapply unharmed_trans; [exact U|apply H]. Qed.

Lemma same_call d c : d_key d = k -> same (call (tree_policy T p2) d c).
Proof using ok ap sep.
  intros E. apply rel_call with (k := k); auto; intros ids; intros; apply same_act; intros t; pose proof (chunk_inside p2 ids sep) as B.
  - apply unharmed_refl.
  - cbn [p_write tree_policy]. unfold tree_write, abind. pose proof (@create_unharmed k (chunk_key k ids) t B) as U.
    destruct (tree_create p2 k (chunk_key k ids) t) as [t1 [|e|]]; cbn [fst] in *; auto. eapply unharmed_trans; [exact U|now apply write_unharmed].
  - cbn [p_erase tree_policy]. unfold tree_erase. destruct (fs_exists _ _); [now apply remove_unharmed|apply unharmed_refl].
  - now apply remove_unharmed.
  - apply unharmed_refl.
Qed.
Lemma same_sh_call sd c : d_key (sd_base sd) = k -> same (sh_call (tree_policy T p2) sd c).
Proof using ok ap sep.
  intros E. apply rel_sh_call with (k := k); auto; intros ids; intros; apply same_act; intros t; pose proof (chunk_inside p2 ids sep) as B.
  - apply unharmed_refl.
  - cbn [p_write tree_policy]. unfold tree_write, abind. pose proof (@create_unharmed k (chunk_key k ids) t B) as U.
    destruct (tree_create p2 k (chunk_key k ids) t) as [t1 [|e|]]; cbn [fst] in *; auto. eapply unharmed_trans; [exact U|now apply write_unharmed].
  - cbn [p_erase tree_policy]. unfold tree_erase. destruct (fs_exists _ _); [now apply remove_unharmed|apply unharmed_refl].
  - now apply remove_unharmed.
Qed.
End Data.

Lemma data_unharmed M o2 c t : elsewhere o (OData o2 c) -> unharmed t (fst (tree_call M o2 c t)).
Proof using ok.
  intros [A St]. unfold stays_inside in St. assert (B : along t t t) by (split; [reflexivity|apply unharmed_refl]).
  unfold tree_call. destruct (op_shard o2) as [|a r] eqn:Es.
  - destruct (@same_call (m_text M) (op_path o2) A (op_keys o2) (fun z => St (or_introl z)) t (array_of M o2) c eq_refl t t B) as [[[_ U] _]|(? & [] & _)]. exact U.
  - unfold abind, aret. destruct (open_sharded _ _) as [sd| |] eqn:E; try apply unharmed_refl.
    unfold open_sharded in E. destruct (chunks_per_shard _ _) as [cps| |]; try discriminate. injection E as <-.
    destruct (@same_sh_call (m_text M) (op_path o2) A (KeyConfig true (k_delim (op_keys o2)) (k_format (op_keys o2)) (k_encoding (op_keys o2)))) with
      (t0 := t) (sd := Sharded (Dataset (op_shape o2) (op_chunks o2) (KeyConfig true (k_delim (op_keys o2)) (k_format (op_keys o2)) (k_encoding (op_keys o2)))
        (m_elem M (op_dtype o2)) (m_fill M (op_dtype o2) (op_fill o2)) (m_codec M (op_codec o2)) (op_mode o2)) (a :: r) cps) (c := c) (s1 := t) (s2 := t)
      as [[[_ U] _]|(? & [] & _)]; auto.
    intros _. apply St. now right.
Qed.
Theorem other_unharmed M x t : elsewhere o x -> unharmed t (fst (run_tree M x t)).
Proof using ok. intros El. destruct x as [m c|o2 c]; [now apply node_unharmed|now apply data_unharmed]. Qed.
End Elsewhere.

(** ** Histories *)
Theorem history_alone M o l : object_ok o -> Forall (step_ok o) l -> forall t st,
  dataset_place o t -> same_chunks o st (files_at (op_path o) t) ->
  let '(st', a) := history (alone M) (own_calls l) st in
  let '(t', a') := history (run_step M) l t in
  own_answers l a' = a /\ dataset_place o t' /\ same_chunks o st' (files_at (op_path o) t').
Proof.
  intros ok H. induction H as [|x l X H IH]; intros t st D C; [cbn; auto|]. destruct x as [o' c|x].
  - destruct X as [G F]. cbn [own_calls history run_step]. unfold alone at 1. cbn [fst snd].
    pose proof (@tree_call_alone M o' c t st (sg_ok G)) as Y. rewrite grid_fitting, grid_dataset, grid_chunks in Y by exact G. rewrite (sg_path G) in Y. specialize (Y F D C).
    destruct (alone_call M o' c st) as [st1 a1], (tree_call M o' c t) as [t1 a2]. destruct Y as (-> & D' & C' & _).
    rewrite grid_dataset in D' by exact G. rewrite grid_chunks in C' by exact G. specialize (IH t1 st1 D' C').
    destruct (history (alone M) (own_calls l) st1), (history (run_step M) l t1). cbn [own_answers]. destruct IH as (<- & IH). auto.
  - cbn [own_calls history run_step step_ok] in *. pose proof (@other_unharmed o ok M x t X (dp_fs D) (dp_dir D)) as U.
    destruct (run_tree M x t) as [t1 a2]. cbn [fst] in U. specialize (IH t1 st (same_place D U) (same_files U C)).
    destruct (history (alone M) (own_calls l) st), (history (run_step M) l t1). exact IH.
Qed.
