(** Documents are no data, and the life of a dataset in a container. *)
From Coq Require Import ZArith String.
From Verif Require Import M_Base P_Base M_Text M_Double M_Json M_Mode M_Key M_View M_Blocking M_Metadata S_Metadata M_Format M_Bytes M_Shard M_Dataset M_Sharded M_Access M_Store M_N5Header
  M_Fs M_Attributes S_Attributes P_Attributes M_Container S_Container P_Container P_Container2 P_Container3 M_Tree S_Text S_S3 S_Tree
  P_Key P_Dataset P_Store P_S3 P_S3Sim P_TreeSim P_Tree P_Tree2 P_PyGroup2 P_PyGroup11.
Import ListNotations.
Set Implicit Arguments.
Local Open Scope list_scope.
Local Open Scope N_scope.
Local Notation length := List.length.

(** ** What data calls change *)
Section Only.
Variable o : opened.
Hypothesis ok : object_ok o.
Notation p := (op_path o).
Notation k := (op_keys o).
Definition data_only (t t' : fsys) : Prop := fs_ok t -> t p = Some NDir ->
  fs_ok t' /\ (forall q, t q = Some NDir -> t' q = Some NDir) /\ forall q, t' q = t q \/ chunk_place o q \/ chunk_dir o q.
Lemma data_only_refl t : data_only t t.
Proof. intros F D. auto. Qed.
Lemma data_only_trans t1 t2 t3 : data_only t1 t2 -> data_only t2 t3 -> data_only t1 t3.
Proof.
  intros H1 H2 F D. destruct (H1 F D) as (F2 & D2 & E2). destruct (H2 F2 (D2 _ D)) as (F3 & D3 & E3). split; [exact F3|]. split; [auto|].
  intros q. destruct (E3 q) as [X|X]; [|auto]. destruct (E2 q) as [Y|Y]; [left; congruence|auto].
Qed.

Variables (T : json -> bytes) (t0 : fsys).
Definition going (t1 t2 : fsys) : Prop := t1 = t2 /\ data_only t0 t1.
Notation same a := (rel going (fun _ => False) (fun _ => True) a a).
Lemma only_act A (a : act fsys A) : (forall t, data_only t (fst (a t))) -> same a.
Proof. intros H t1 t2 [-> U]. left. split; [|reflexivity]. split; [reflexivity|]. eapply data_only_trans; [exact U|apply H]. Qed.

Lemma create_only (ids : shape) t : length ids = length (op_shape o) -> data_only t (fst (tree_create p k (chunk_key k ids) t)).
Proof using ok.
  intros L. unfold tree_create. destruct (_ && _)%bool; [apply data_only_refl|]. destruct (fs_exists _ _); [apply data_only_refl|]. cbn [fst].
  intros F Dir. rewrite (at_key ok L). set (d := removelast _).
  destruct (fs_mkdirs d t) as [s1 r] eqn:E. unfold fs_mkdirs in E. destruct existsb eqn:X; injection E as <- <-; cbn [fst]; [auto|].
  assert (M : fs_mkdirs d t = ((fun q => if below q d then Some NDir else t q), Ok tt)) by (unfold fs_mkdirs; now rewrite X).
  split; [apply (mkdirs_ok F M)|]. split; [intros q Q; now destruct (below q d)|]. intros q. destruct (below q d) eqn:Y; [|now left].
  destruct (@parent_cases o ok ids q L Y) as [Z|Z]; [left|auto]. symmetry. now apply (dirs_above F Dir).
Qed.
Lemma write_only (ids : shape) b t : length ids = length (op_shape o) -> data_only t (fst (tree_write_file p (chunk_key k ids) b t)).
Proof using ok.
  intros L. unfold tree_write_file. destruct (_ && _)%bool eqn:X; [|apply data_only_refl]. cbn [fst]. apply andb_prop in X. destruct X as [X1 X2].
  rewrite (at_key ok L) in *. intros F Dir. assert (N : t (p ++ resolve (chunk_key k ids)) <> Some NDir) by (intros E; unfold fs_isdir in X2; now rewrite E in X2).
  split; [|split].
  - apply set_tree; [exact F| |exact N]. unfold fs_isdir in X1. destruct (t (removelast _)) as [[| |]|]; congruence.
  - intros q Q. rewrite path_eqb_ne; [exact Q|congruence].
  - intros q. destruct (path_eqb q _) eqn:E; [|now left]. apply path_eqb_eq in E. right. left. exists ids. auto.
Qed.
Lemma remove_only (ids : shape) t : length ids = length (op_shape o) -> data_only t (fst (tree_remove p (chunk_key k ids) t)).
Proof using ok.
  intros L. unfold tree_remove. rewrite (at_key ok L). intros F Dir. set (c := p ++ resolve (chunk_key k ids)).
  assert (H : t c <> Some NDir -> let t' := fun q => if path_eqb q c then None else t q in
    fs_ok t' /\ (forall q, t q = Some NDir -> t' q = Some NDir) /\ forall q, t' q = t q \/ chunk_place o q \/ chunk_dir o q).
  { intros N. split; [now apply unset_tree|]. split.
    - intros q Q. rewrite path_eqb_ne; [exact Q|congruence].
    - intros q. destruct (path_eqb q c) eqn:E; [|now left]. apply path_eqb_eq in E. right. left. exists ids. auto. }
  destruct (t c) as [[| |]|] eqn:E; cbn [fst]; try (apply H; congruence). auto.
Qed.

Lemma only_write (ids : shape) b t : length ids = length (op_shape o) -> data_only t (fst (p_write (tree_policy T p) k (chunk_key k ids) b t)).
Proof using ok.
  intros L. cbn [p_write tree_policy]. unfold tree_write, abind. pose proof (@create_only ids t L) as U.
  destruct (tree_create p k (chunk_key k ids) t) as [t1 [|e|]]; cbn [fst] in *; auto. eapply data_only_trans; [exact U|now apply write_only].
Qed.
Lemma only_erase (ids : shape) t : length ids = length (op_shape o) -> data_only t (fst (p_erase (tree_policy T p) (chunk_key k ids) t)).
Proof using ok. intros L. cbn [p_erase tree_policy]. unfold tree_erase. destruct (fs_exists _ _); [now apply remove_only|apply data_only_refl]. Qed.
End Only.

Theorem data_changes M o c t : object_ok o -> fitting o c -> data_only o t (fst (tree_call M o c t)).
Proof.
  intros ok F. assert (B : going o t t t) by (split; [reflexivity|apply data_only_refl]).
  assert (H : rel (going o t) (fun _ => False) (fun _ => True) (tree_call M o c) (tree_call M o c)).
  { unfold tree_call. destruct (op_shard o) as [|a r] eqn:Es.
    - apply sim_call with (k := op_keys o) (n := length (op_shape o)); auto; intros; try (apply only_act; intros s).
      + apply data_only_refl.
      + now apply only_write.
      + now apply only_erase.
      + now apply remove_only.
      + apply (oo_chunks ok).
      + apply data_only_refl.
    - apply rel_bind_ret. intros sd E.
      unfold open_sharded in E. destruct (chunks_per_shard _ _) as [cps| |] eqn:Ec; try discriminate. injection E as <-.
      assert (Z : k_zarr (op_keys o) = true) by (apply (oo_sharded ok); rewrite Es; discriminate).
      apply sim_sh_call with (k := op_keys o) (n := length (op_shape o)); auto; intros; try (apply only_act; intros s).
      + apply data_only_refl.
      + now apply only_write.
      + now apply only_erase.
      + now apply remove_only.
      + cbn. destruct (op_keys o). cbn in *. now rewrite Z.
      + apply (oo_chunks ok). }
  destruct (H t t B) as [[[_ U] _]|(? & [] & _)]. exact U.
Qed.

(** ** Documents *)
Definition docs_same (q : path) (t t' : fsys) : Prop := t' q = t q /\ forall a, In a reserved_names -> t' (q ++ [a]) = t (q ++ [a]).

Lemma only_docs o q t t' : object_ok o -> not_inside (op_path o) q -> (forall q, t' q = t q \/ chunk_place o q \/ chunk_dir o q) -> docs_same q t t'.
Proof.
  intros ok N H.
  assert (Sp : forall q', chunk_place o q' \/ chunk_dir o q' -> exists x r, q' = op_path o ++ x :: r /\ ~ In x reserved_names).
  { intros q' X. destruct (@mine_split o ok q' (or_intror X)) as [E|E]; [|exact E]. exfalso. destruct X as [(ids & L & Y)|(Y & _)]; [|contradiction].
    apply (@place_not_dir o ok ids L). congruence. }
  assert (Q : below (op_path o) q = true -> q = op_path o) by (intros B; destruct N; congruence).
  split.
  - destruct (H q) as [E|E]; [exact E|]. exfalso. destruct (Sp q E) as (x & r & -> & _). specialize (Q (below_app _ _)).
    rewrite <- (app_nil_r (op_path o)) in Q at 2. apply app_inv_head in Q. discriminate.
  - intros a I. destruct (H (q ++ [a])) as [E|E]; [exact E|]. exfalso. destruct (Sp _ E) as (x & r & X & NR).
    destruct (exists_last (l := x :: r)) as (l & z & Y); [discriminate|]. rewrite Y, app_assoc in X. apply app_inj_tail in X. destruct X as [X ->].
    rewrite X in Q. specialize (Q (below_app _ _)). rewrite <- (app_nil_r (op_path o)) in Q at 2. apply app_inv_head in Q. subst l. cbn in Y. injection Y as -> _. contradiction.
Qed.
Lemma docs_trans q t1 t2 t3 : docs_same q t1 t2 -> docs_same q t2 t3 -> docs_same q t1 t3.
Proof. intros [A B] [C D]. split; [congruence|]. intros a I. rewrite D, B; auto. Qed.

(** A history of data calls. *)
Theorem data_docs M : forall l t, fs_ok t -> Forall (data_ok t) l -> forall q, Forall (fun x => not_inside (op_path (fst x)) q) l ->
  docs_same q t (fst (data_history M l t)).
Proof.
  induction l as [|[o c] l IH]; intros t F H q N; [split; auto|]. inversion H as [|? ? (ok & Fit & D) H']. subst. inversion N as [|? ? N1 N']. subst. cbn [fst snd] in *.
  unfold data_history in *. cbn [history fst snd]. destruct (@data_changes M o c t ok Fit F D) as (F' & D' & E'). destruct (tree_call M o c t) as [t1 a]. cbn [fst] in *.
  specialize (IH t1 F'). destruct (history _ l t1) as [t2 a2]. cbn [fst] in *.
  apply docs_trans with t1; [now apply (@only_docs o)|]. apply IH; [|exact N'].
  eapply Forall_impl; [|exact H']. intros x (A & B & C). split; [exact A|]. split; [exact B|]. now apply D'.
Qed.

(** What opening and attributes look at. *)
Ltac resv := unfold reserved_names; cbn [In]; tauto.
(** What the format of a group depends on. *)
Definition format_same (q : path) (t t' : fsys) : Prop :=
  t' q = t q /\ t' (q ++ [".zgroup"%string]) = t (q ++ [".zgroup"%string]) /\ t' (q ++ ["zarr.json"%string]) = t (q ++ ["zarr.json"%string]).
Lemma docs_format q t t' : docs_same q t t' -> format_same q t t'.
Proof. intros [A B]. split; [exact A|]. split; apply B; resv. Qed.
Lemma open_docs s s' root key : format_same (h_path root) s s' -> docs_same (h_path root ++ key) s s' -> open_dataset s' root key = open_dataset s root key.
Proof.
  intros (R0 & R1 & R2) [P0 P].
  assert (Z : is_zarr_group s' (h_path root) = is_zarr_group s (h_path root)) by (unfold is_zarr_group, fs_exists; now rewrite R0, R1, R2).
  unfold open_dataset. rewrite Z.
  assert (C : chunk_config s' (h_path root ++ key) = chunk_config s (h_path root ++ key)) by (unfold chunk_config, parse_doc, fs_exists; rewrite !P by resv; reflexivity).
  rewrite C.
  assert (FO : forall ka, fs_open_dataset s' (Handle (h_path root ++ key) (h_mode root)) ka = fs_open_dataset s (Handle (h_path root ++ key) (h_mode root)) ka).
  { intros ka. unfold fs_open_dataset, read_dataset_metadata, metadata_doc, parse_doc. cbn [h_path]. unfold fs_exists. rewrite P0, !P by resv.
    destruct (negb _); [reflexivity|]. destruct (_ && _)%bool; [reflexivity|]. destruct (_ && _)%bool; [reflexivity|]. cbn [bind].
    rewrite P by (repeat match goal with |- context [if ?b then _ else _] => destruct b end; resv). reflexivity. }
  destruct (is_zarr_group s (h_path root)) as [z| |]; try reflexivity. cbn [bind].
  destruct z; [destruct (chunk_config s (h_path root ++ key)); try reflexivity|]; cbn [bind]; apply FO.
Qed.
Lemma attrs_docs k s s' q : docs_same q s s' -> read_attributes k s' q = read_attributes k s q.
Proof.
  intros [P0 P]. assert (Z : handle_is_zarr k s' q = handle_is_zarr k s q).
  { destruct k; cbn [handle_is_zarr]; unfold is_zarr_group, is_zarr_dataset, fs_exists; rewrite P0, !P by resv; reflexivity. }
  unfold read_attributes. rewrite Z. destruct (handle_is_zarr k s q) as [z| |]; try reflexivity. cbn [bind].
  assert (G : gen_read_attributes s' q z JNull = gen_read_attributes s q z JNull); [|now rewrite G].
  unfold gen_read_attributes, read_v3_attributes, read_doc_or, read_doc, parse_doc, fs_exists, attributes_name. rewrite !P by (try destruct z; resv). reflexivity.
Qed.

Theorem data_metadata M l t q : fs_ok t -> Forall (data_ok t) l -> Forall (fun x => not_inside (op_path (fst x)) q) l ->
  let t' := fst (data_history M l t) in
  t' q = t q /\ (forall a, In a reserved_names -> t' (q ++ [a]) = t (q ++ [a])) /\ forall k, read_attributes k t' q = read_attributes k t q.
Proof.
  intros F H N t'. pose proof (@data_docs M l t F H q N) as D. fold t' in D. split; [apply D|]. split; [apply D|]. intros k. now apply attrs_docs.
Qed.
Theorem data_reopen M l t root key : fs_ok t -> Forall (data_ok t) l -> Forall (fun x => not_inside (op_path (fst x)) (h_path root ++ key)) l ->
  open_dataset (fst (data_history M l t)) root key = open_dataset t root key.
Proof.
  intros F H N. apply open_docs; [apply docs_format|]; apply data_docs; auto. eapply Forall_impl; [|exact N]. intros x X. cbn in *.
  unfold not_inside in *. destruct (below (op_path (fst x)) (h_path root)) eqn:B; [right|now left]. destruct X as [X|X].
  - rewrite (below_trans B (below_app _ _)) in X. discriminate.
  - symmetry. apply below_antisym; [exact B|]. rewrite <- X. apply below_app.
Qed.

(** ** Data calls and the other nodes *)
Section Outside.
Variables (T : json -> bytes) (p2 : path).
Notation R := (outside_kept p2).
Lemma outside_refl t : R t t.
Proof. intros q B. now left. Qed.
Lemma create_outside k key t : below p2 (chunk_at p2 key) = true -> R t (fst (tree_create p2 k key t)).
Proof.
  intros B. unfold tree_create. destruct (_ && _)%bool; [apply outside_refl|]. destruct (fs_exists _ _); [apply outside_refl|]. cbn [fst].
  set (d := removelast (chunk_at p2 key)). intros q Q. unfold fs_mkdirs. destruct existsb eqn:X; [now left|]. cbn [fst]. destruct (below q d) eqn:Y; [|now left].
  assert (Z : below q p2 = true) by (destruct (below_both (below_trans Y (below_removelast _)) B); [assumption|congruence]).
  destruct (t q) as [[| |]|] eqn:E; [now left| | |now right].
  - exfalso. assert (W : existsb (fun q => fs_exists t q && negb (fs_isdir t q)) (prefixes d) = true); [|congruence].
    apply existsb_exists. exists q. split; [now apply prefixes_below|]. unfold fs_exists, fs_isdir. now rewrite E.
  - exfalso. assert (W : existsb (fun q => fs_exists t q && negb (fs_isdir t q)) (prefixes d) = true); [|congruence].
    apply existsb_exists. exists q. split; [now apply prefixes_below|]. unfold fs_exists, fs_isdir. now rewrite E.
Qed.
Lemma inside_ne q c : below p2 c = true -> below p2 q = false -> path_eqb q c = false.
Proof. intros A B. apply path_eqb_ne. congruence. Qed.
Lemma write_outside key b t : below p2 (chunk_at p2 key) = true -> R t (fst (tree_write_file p2 key b t)).
Proof. intros B q Q. left. unfold tree_write_file. destruct (_ && _)%bool; [|reflexivity]. cbn [fst]. now rewrite inside_ne. Qed.
Lemma remove_outside key t : below p2 (chunk_at p2 key) = true -> R t (fst (tree_remove p2 key t)).
Proof. intros B q Q. left. unfold tree_remove. destruct (t (chunk_at p2 key)) as [[| |]|]; cbn [fst]; rewrite ?inside_ne; auto. Qed.

Variable k : key_config.
Hypothesis sep : k_zarr k = true -> fs_separator (k_delim k).
Lemma policy_outside (ids : shape) b t : let key := chunk_key k ids in
  R t (fst (p_write (tree_policy T p2) k key b t)) /\ R t (fst (p_erase (tree_policy T p2) key t)) /\ R t (fst (p_remove (tree_policy T p2) key t)).
Proof using sep.
  intros key. pose proof (chunk_inside p2 ids sep) as B. fold key in B. split; [|split].
  - cbn [p_write tree_policy]. unfold tree_write, abind. pose proof (@create_outside k key t B) as U.
    destruct (tree_create p2 k key t) as [t1 [|e|]]; cbn [fst] in *; auto. eapply outside_trans; [exact U|now apply write_outside].
  - cbn [p_erase tree_policy]. unfold tree_erase. destruct (fs_exists _ _); [now apply remove_outside|apply outside_refl].
  - now apply remove_outside.
Qed.
Variable t0 : fsys.
Definition ongoing (t1 t2 : fsys) : Prop := t1 = t2 /\ R t0 t1.
Notation same a := (rel ongoing (fun _ => False) (fun _ => True) a a).
Lemma ongoing_act A (a : act fsys A) : (forall t, R t (fst (a t))) -> same a.
Proof. intros H t1 t2 [-> U]. left. split; [|reflexivity]. split; [reflexivity|]. eapply outside_trans; [exact U|apply H]. Qed.
Lemma outside_call d c : d_key d = k -> same (call (tree_policy T p2) d c).
Proof using sep.
  intros E. apply rel_call with (k := k); auto; intros ids; intros; apply ongoing_act; intros t.
  - apply outside_refl.
  - apply (policy_outside ids b t).
  - apply (policy_outside ids [] t).
  - apply (policy_outside ids [] t).
  - apply outside_refl.
Qed.
Lemma outside_sh_call sd c : d_key (sd_base sd) = k -> same (sh_call (tree_policy T p2) sd c).
Proof using sep.
  intros E. apply rel_sh_call with (k := k); auto; intros ids; intros; apply ongoing_act; intros t.
  - apply outside_refl.
  - apply (policy_outside ids b t).
  - apply (policy_outside ids [] t).
  - apply (policy_outside ids [] t).
Qed.
End Outside.

Theorem data_outside M o c t : stays_inside o -> outside_kept (op_path o) t (fst (tree_call M o c t)).
Proof.
  intros St. unfold stays_inside in St. assert (B : ongoing (op_path o) t t t) by (split; [reflexivity|apply outside_refl]).
  unfold tree_call. destruct (op_shard o) as [|a r] eqn:Es.
  - destruct (@outside_call (m_text M) (op_path o) (op_keys o) (fun z => St (or_introl z)) t (array_of M o) c eq_refl t t B) as [[[_ U] _]|(? & [] & _)]. exact U.
  - unfold abind, aret. destruct (open_sharded _ _) as [sd| |] eqn:E; try apply outside_refl.
    unfold open_sharded in E. destruct (chunks_per_shard _ _) as [cps| |]; try discriminate. injection E as <-.
    destruct (@outside_sh_call (m_text M) (op_path o) (KeyConfig true (k_delim (op_keys o)) (k_format (op_keys o)) (k_encoding (op_keys o)))) with
      (t0 := t) (sd := Sharded (Dataset (op_shape o) (op_chunks o) (KeyConfig true (k_delim (op_keys o)) (k_format (op_keys o)) (k_encoding (op_keys o)))
        (m_elem M (op_dtype o)) (m_fill M (op_dtype o) (op_fill o)) (m_codec M (op_codec o)) (op_mode o)) (a :: r) cps) (c := c) (s1 := t) (s2 := t)
      as [[[_ U] _]|(? & [] & _)]; auto.
    intros _. apply St. now right.
Qed.

(** ** The life of a dataset *)
Lemma open_mode s root key m : open_dataset s (Handle (h_path root) m) key = omap (with_mode m) (open_dataset s root key).
Proof.
  unfold open_dataset. cbn [h_path h_mode]. destruct (is_zarr_group _ _) as [z| |]; try reflexivity. cbn [bind].
  destruct (if z then _ else _) as [ka| |]; try reflexivity. cbn [bind]. unfold fs_open_dataset. cbn [h_path]. destruct (negb _); [reflexivity|].
  destruct (read_dataset_metadata _ _) as [md| |]; try reflexivity. cbn [bind]. unfold make_dataset. destruct (mk_blocking _ _); try reflexivity. cbn [bind].
  destruct (element_fill _ _); try reflexivity. cbn [bind]. destruct (init_compressor _ _); reflexivity.
Qed.
Lemma same_with_mode m o o' : same_object o o' -> same_object (with_mode m o) (with_mode m o').
Proof. intros S. destruct S. constructor; cbn; auto. Qed.
Lemma object_grid o o' : object_ok o -> same_object o o' -> same_grid o o'.
Proof.
  intros ok S. constructor.
  - constructor.
    + rewrite (so_shape S). apply (oo_axes ok).
    + rewrite (so_shape S), (so_chunks S). apply (oo_chunks ok).
    + intros Z. rewrite (so_zarr S) in Z. rewrite (so_delim S Z). now apply (oo_delim ok).
    + rewrite (so_shard S), (so_zarr S). apply (oo_sharded ok).
  - apply (so_path S).
  - apply (so_shape S).
  - apply (so_keys S).
Qed.
Lemma with_mode_grid m o o' : same_grid o o' -> same_grid o (with_mode m o').
Proof. intros G. destruct G as [ok ? ? ?]. constructor; auto. destruct ok. constructor; auto. Qed.

Lemma sibling_apart root key key2 : below key key2 = false -> below key2 key = false -> apart (root ++ key) (root ++ key2).
Proof. intros A B. split; now rewrite app_below. Qed.
Lemma life_step root key o x : op_path o = root ++ key -> in_life root key o x -> step_ok o x.
Proof.
  intros P H. destruct x as [o' c|[m c|o2 c]]; [exact H| |].
  - destruct H as (key2 & T & _ & B1 & B2). cbn [step_ok elsewhere]. pose proof (sibling_apart root B1 B2) as A. rewrite <- P, <- T in A.
    destruct c; cbn [target] in *; try (left; apply A). exact A.
  - destruct H as (St & key2 & T & _ & B1 & B2). cbn [step_ok elsewhere]. rewrite P, T. split; [now apply sibling_apart|exact St].
Qed.

Lemma life_kept M root key o x t : object_ok o -> op_path o = root ++ key -> key <> [] -> in_life root key o x -> dataset_place o t ->
  format_same root t (fst (run_step M x t)) /\ docs_same (root ++ key) t (fst (run_step M x t)).
Proof.
  intros ok P K H D.
  assert (Sib : forall key2 t', key_free key2 -> below key key2 = false -> below key2 key = false -> outside_kept (root ++ key2) t t' ->
    format_same root t t' /\ docs_same (root ++ key) t t').
  { intros key2 t' Kf B1 B2 O. assert (Rt : t root <> None).
    { rewrite (dirs_above (dp_fs D) (dp_dir D)); [discriminate|]. rewrite P. apply below_app. }
    destruct (@sibling_kept root key key2 t t' O Rt Kf B1 B2) as (E1 & E2 & E3 & E4). split; [split; auto|]. split.
    - specialize (E1 []). now rewrite app_nil_r in E1.
    - intros a _. rewrite <- app_assoc. apply E1. }
  destruct x as [o' c|[m c|o2 c]]; cbn [in_life run_step run_tree] in *.
  - destruct H as [G F]. assert (Dir : t (op_path o') = Some NDir) by (rewrite (sg_path G); apply (dp_dir D)).
    assert (F' : fitting o' c) by now apply (grid_fitting c G). destruct (@data_changes M o' c t (sg_ok G) F' (dp_fs D) Dir) as (_ & _ & E).
    assert (N : not_inside (op_path o') root).
    { left. rewrite (sg_path G), P. apply below_antisym'; [apply below_app|]. intros X. rewrite <- (app_nil_r root) in X at 1. apply app_inv_head in X. congruence. }
    split; [apply docs_format; now apply (only_docs (sg_ok G) N E)|]. rewrite <- P, <- (sg_path G). apply (only_docs (sg_ok G)); [now right|exact E].
  - destruct H as (key2 & Tg & Kf & B1 & B2). unfold amap. cbn [fst]. pose proof (@ccall_outside m c t) as O. rewrite Tg in O. now apply (Sib key2).
  - destruct H as (St & key2 & Tg & Kf & B1 & B2). pose proof (@data_outside M o2 c t St) as O. rewrite Tg in O. now apply (Sib key2).
Qed.

Lemma life_history M root key o : object_ok o -> op_path o = root ++ key -> key <> [] -> forall l, Forall (in_life root key o) l -> forall t, dataset_place o t ->
  dataset_place o (fst (history (run_step M) l t)) /\
  format_same root t (fst (history (run_step M) l t)) /\ docs_same (root ++ key) t (fst (history (run_step M) l t)).
Proof.
  intros ok P K l. induction l as [|x l IH]; intros H t D; [split; [exact D|split; split; auto]|]. inversion H; subst. cbn [history].
  destruct (@life_kept M root key o x t ok P K H2 D) as [A B].
  pose proof (@history_alone M o [x] ok) as Y. specialize (Y (Forall_cons _ (life_step P H2) (Forall_nil _)) t (files_at (op_path o) t) D (fun _ _ => eq_refl)).
  cbn [history] in Y. destruct (run_step M x t) as [t1 a]. cbn [fst] in *. destruct (history (alone M) (own_calls [x]) (files_at (op_path o) t)) as [? ?]. destruct Y as (_ & D1 & _).
  destruct (IH H3 t1 D1) as (D2 & A2 & B2). destruct (history (run_step M) l t1) as [t2 a2]. cbn [fst] in *. split; [exact D2|]. split; [|now apply docs_trans with t1].
  destruct A as (A & A' & A''), A2 as (E & E' & E''). split; [congruence|]. split; congruence.
Qed.

Lemma fresh_place o s s' name j : fs_ok s' -> object_ok o -> In name reserved_names -> fresh_container s s' (op_path o) name j ->
  dataset_place o s' /\ same_chunks o no_files (files_at (op_path o) s').
Proof.
  intros F ok I C.
  assert (X : forall q, chunk_place o q \/ chunk_dir o q -> s' q = None).
  { intros q Q. destruct (@mine_split o ok q (or_intror Q)) as [E|(x & r & E & N)].
    { exfalso. destruct Q as [(ids & L & Y)|(Y & _)]; [|contradiction]. apply (@place_not_dir o ok ids L). congruence. }
    subst q. rewrite C. rewrite below_app. destruct (below (_ ++ _) _) eqn:B.
    - exfalso. apply below_antisym in B; [|apply below_app]. rewrite <- (app_nil_r (op_path o)) in B at 1. apply app_inv_head in B. discriminate.
    - rewrite path_eqb_ne; [reflexivity|]. intros E. apply app_inv_head in E. injection E as -> _. contradiction. }
  split.
  - constructor; [exact F|rewrite C, below_refl; reflexivity| |]; intros q Q; left; apply X; auto.
  - intros ids L. unfold files_at, no_files. rewrite X; [reflexivity|]. left. now exists ids.
Qed.

Lemma created_object_ok root key dn sh ch cn op fill delim fmt enc shard t t1 o z : fs_ok t -> is_zarr_group t (h_path root) = Ok z ->
  (z = true -> good_separator delim /\ (delim = "/"%string \/ slash_free delim = true)) -> length ch = length sh ->
  create_dataset root key dn sh ch cn op fill delim fmt enc shard t = (t1, Ok o) -> object_ok o.
Proof.
  intros F Z Dl Lc C. pose proof (@created_as_asked root key dn sh ch cn op fill delim fmt enc shard t t1 o z F Z C) as AA.
  destruct (create_inv F C) as (z' & m & j & _ & _ & Cr & _).
  constructor.
    - rewrite (aa_shape AA). intros ->. pose proof (cr_made Cr) as Mk. unfold make_dataset in Mk.
      destruct (mk_blocking (md_shape m) (md_chunks m)) as [b| |] eqn:B; try discriminate. cbn [bind] in Mk.
      destruct (element_fill _ _); try discriminate. cbn [bind] in Mk. destruct (init_compressor _ _); try discriminate. cbn [bind] in Mk. injection Mk as Mk.
      pose proof (aa_shape AA) as Sh. rewrite <- Mk in Sh. cbn in Sh. rewrite Sh in B. discriminate.
    - rewrite (aa_shape AA), (aa_chunks AA). exact Lc.
    - rewrite (aa_keys AA). exact Dl.
    - intros N. pose proof (cr_made Cr) as Mk. unfold make_dataset in Mk.
      destruct (mk_blocking (md_shape m) (md_chunks m)) as [b| |]; try discriminate. cbn [bind] in Mk.
      destruct (element_fill _ _); try discriminate. cbn [bind] in Mk. destruct (init_compressor _ _); try discriminate. cbn [bind] in Mk. injection Mk as Mk.
      rewrite <- Mk in N |- *. cbn in *. destruct (match md_dtype m with DT_complex64 | DT_complex128 | DT_complex256 => true | _ => false end); [congruence|]. now destruct (md_shard m).
Qed.

Theorem created_place root key dn sh ch cn op fill delim fmt enc shard t t1 o z : fs_ok t -> is_zarr_group t (h_path root) = Ok z ->
  (z = true -> good_separator delim /\ (delim = "/"%string \/ slash_free delim = true)) -> length ch = length sh ->
  create_dataset root key dn sh ch cn op fill delim fmt enc shard t = (t1, Ok o) ->
  object_ok o /\ dataset_place o t1 /\ same_chunks o no_files (files_at (op_path o) t1).
Proof.
  intros F Z Dl Lc C.
  pose proof (@created_object_ok root key dn sh ch cn op fill delim fmt enc shard t t1 o z F Z Dl Lc C) as ok. split; [exact ok|].
  pose proof (@created_as_asked root key dn sh ch cn op fill delim fmt enc shard t t1 o z F Z C) as AA.
  assert (F1 : fs_ok t1).
  { pose proof (@ccall_tree (h_mode root) (CCreateDataset (h_path root) key dn sh ch cn op fill delim fmt enc shard) t F) as X.
    cbn [run_ccall] in X. destruct root as [rp rm]. cbn [h_path h_mode] in *. unfold drop, fbind in X. rewrite C in X. cbn [fst fret] in X. apply X. discriminate. }
  destruct (create_inv F C) as (z' & m & j & _ & _ & Cr & _).
  apply (@fresh_place o t t1 (md_doc m) (reparse j) F1 ok).
  - unfold md_doc. repeat match goal with |- context [if ?b then _ else _] => destruct b end; resv.
  - rewrite (aa_path AA). apply (cr_fs Cr).
Qed.

Theorem dataset_life M root key dn sh ch cn op fill delim fmt enc shard t t1 o z l :
  fs_ok t -> key_free key -> options_ok op -> dbl_ok fill ->
  is_zarr_group t (h_path root) = Ok z -> (z = true -> fmt = 2%Z \/ fmt = 3%Z) ->
  (z = true -> good_separator delim /\ (delim = "/"%string \/ slash_free delim = true)) -> length ch = length sh ->
  create_dataset root key dn sh ch cn op fill delim fmt enc shard t = (t1, Ok o) ->
  recordable_codec z fmt (op_codec o) -> recordable_fill z (op_dtype o) (op_fill o) ->
  Forall (in_life (h_path root) key o) l ->
  let '(t2, a) := history (run_step M) l t1 in
  own_answers l a = snd (history (alone M) (own_calls l) no_files) /\
  dataset_place o t2 /\ same_chunks o (fst (history (alone M) (own_calls l) no_files)) (files_at (op_path o) t2) /\
  forall m, exists o', open_dataset t2 (Handle (h_path root) m) key = Ok o' /\ same_object (with_mode m o) o' /\ same_grid o o'.
Proof.
  intros F Kf Oo Df Z Fmt Dl Lc C Rc Rf H.
  destruct (@create_reopens root key dn sh ch cn op fill delim fmt enc shard t t1 o z F Kf Oo Df Z Fmt C Rc Rf) as (o1 & E1 & S1).
  pose proof (@created_as_asked root key dn sh ch cn op fill delim fmt enc shard t t1 o z F Z C) as AA.
  assert (F1 : fs_ok t1).
  { pose proof (@ccall_tree (h_mode root) (CCreateDataset (h_path root) key dn sh ch cn op fill delim fmt enc shard) t F) as X.
    cbn [run_ccall] in X. destruct root as [rp rm]. cbn [h_path h_mode] in *. unfold drop, fbind in X. rewrite C in X. cbn [fst fret] in X. apply X. discriminate. }
  destruct (create_inv F C) as (z' & m & j & Z' & _ & Cr & _). rewrite Z in Z'. injection Z' as <-.
  pose proof (@created_object_ok root key dn sh ch cn op fill delim fmt enc shard t t1 o z F Z Dl Lc C) as ok.
  assert (P : op_path o = h_path root ++ key) by apply (aa_path AA).
  assert (Kn : key <> []) by (intros ->; exact Kf).
  destruct (@fresh_place o t t1 (md_doc m) (reparse j) F1 ok) as [D1 C1].
  { unfold md_doc. repeat match goal with |- context [if ?b then _ else _] => destruct b end; resv. }
  { rewrite P. apply (cr_fs Cr). }
  assert (H' : Forall (step_ok o) l) by (eapply Forall_impl; [|exact H]; intros x; now apply life_step).
  pose proof (@history_alone M o l ok H' t1 no_files D1 C1) as Y.
  destruct (@life_history M (h_path root) key o ok P Kn l H t1 D1) as (_ & Fm & Dc).
  destruct (history (run_step M) l t1) as [t2 a], (history (alone M) (own_calls l) no_files) as [st2 a2]. cbn [fst snd] in *. destruct Y as (Y & D2 & C2). split; [exact Y|]. split; [exact D2|]. split; [exact C2|].
  intros md. exists (with_mode md o1). rewrite open_mode, (@open_docs t1 t2 root key Fm Dc), E1. cbn [omap].
  split; [reflexivity|]. split; [now apply same_with_mode|]. apply with_mode_grid. now apply object_grid.
Qed.
