(** A dataset of a container as an array. *)
From Coq Require Import ZArith String.
From Verif Require Import M_Base P_Base P_Blocking M_Text M_Double M_Json M_Mode M_Key M_View M_Blocking M_Metadata S_Metadata M_Format M_Bytes M_Shard M_Dataset M_Sharded M_Access M_Store M_N5Header
  M_Fs M_Attributes S_Attributes P_Attributes M_Container S_Container P_Container P_Container2 P_Container3 P_SameObject M_Tree S_Array S_Grid S_Bytes S_Text S_Format S_Dataset S_Access S_Sharded S_S3 S_Tree
  P_Key P_Dataset P_Access P_History P_Sharded P_Store P_S3 P_S3Sim P_TreeSim P_Tree P_Tree2 P_Tree3 P_PyGroup2 P_PyGroup11.
Import ListNotations.
Set Implicit Arguments.
Local Open Scope list_scope.
Local Open Scope N_scope.
Local Notation length := List.length.

Lemma looking M o' c st : looks c -> fst (alone_call M o' c st) = st.
Proof.
  intros L. unfold alone_call. destruct (op_shard o').
  - destruct c; try destruct L; reflexivity.
  - unfold abind, aret. destruct (open_sharded _ _) as [sd| |]; try reflexivity. destruct c; try destruct L; reflexivity.
Qed.

Lemma alone_ops M o (run : array_op -> action unit) root key d :
  (forall x st, alone_call M o (op_call x) st = amap (fun _ => AUnit) (run x) st) ->
  forall l, Forall (event_ok root key o d) l -> forall st st', foldS (fun _ x => run x) (array_ops l) tt st = (st', Ok tt) ->
  fst (history (alone M) (own_calls (map (event_step o) l)) st) = st'.
Proof.
  intros R l H. induction H as [|e l E H IH]; intros st st' X.
  - cbn in *. unfold pure in X. congruence.
  - destruct e as [x|o' c|x]; cbn [array_ops map event_step own_calls history] in *.
    + cbn [foldS] in X. unfold sbind in X. unfold alone at 1. cbn [fst snd]. rewrite R. unfold amap. destruct (run x st) as [st1 [[]|e|]]; try discriminate. cbn [fst snd].
      specialize (IH st1 st' X). now destruct (history (alone M) (own_calls (map (event_step o) l)) st1).
    + unfold alone at 1. cbn [fst snd]. destruct E as [L _]. pose proof (@looking M o' c st L) as Y. destruct (alone_call M o' c st) as [st1 a]. cbn [fst] in Y. subst st1.
      specialize (IH st st' X). now destruct (history (alone M) (own_calls (map (event_step o) l)) st).
    + now apply IH.
Qed.

Lemma valid_fits d c : dims_ok (d_shape d) (d_chunks d) -> valid_chunk (d_shape d) (d_chunks d) c -> length c = length (d_shape d).
Proof. intros _ H. unfold valid_chunk in H. apply all3_length in H. lia. Qed.
Lemma op_fits o d x : length (d_shape d) = length (op_shape o) -> array_op_ok d x -> fitting o (op_call x).
Proof.
  intros E H. assert (V : forall c, valid_chunk (d_shape d) (d_chunks d) c -> length c = length (op_shape o)).
  { intros c V. unfold valid_chunk in V. apply all3_length in V. lia. }
  destruct x; cbn [op_call fitting array_op_ok] in *; [exact I| |]; apply V; [apply H|exact H].
Qed.
Lemma grid_refl o : object_ok o -> same_grid o o.
Proof. intros ok. constructor; auto. Qed.
Lemma event_life root key o d e : object_ok o -> length (d_shape d) = length (op_shape o) -> event_ok root key o d e -> in_life root key o (event_step o e).
Proof.
  intros ok E H. destruct e; cbn [event_ok event_step] in *; [|apply H|exact H]. split; [now apply grid_refl|]. now apply op_fits with d.
Qed.

Section Life.
Variable M : meaning.
Variables (root : handle) (key : path) (dn : string) (sh ch : shape) (cn : string) (op : options) (fill : dbl) (delim : string) (fmt : Z) (enc : string) (shard : shape).
Variables (t t1 : fsys) (o : opened) (z : bool).
Hypothesis F : fs_ok t.
Hypothesis Kf : key_free key.
Hypothesis Oo : options_ok op.
Hypothesis Df : dbl_ok fill.
Hypothesis Z : is_zarr_group t (h_path root) = Ok z.
Hypothesis Fmt : z = true -> fmt = 2%Z \/ fmt = 3%Z.
Hypothesis C : create_dataset root key dn sh ch cn op fill delim fmt enc shard t = (t1, Ok o).
Hypothesis Rc : recordable_codec z fmt (op_codec o).
Hypothesis Rf : recordable_fill z (op_dtype o) (op_fill o).
Hypothesis Mc : forall x y, same_codec x y -> m_codec M x = m_codec M y.
Variable l : list event.
Notation t2 := (fst (history (run_step M) (map (event_step o) l) t1)).

Lemma asked : as_asked root key z dn sh ch cn op fill delim fmt enc shard o.
Proof using F Z C. exact (@created_as_asked root key dn sh ch cn op fill delim fmt enc shard t t1 o z F Z C). Qed.
Lemma created_writable : can_write (op_mode o) = true.
Proof using F Z C.
  rewrite (aa_mode asked). destruct (create_inv F C) as (z' & m & j & _ & _ & Cr & _). pose proof (cr_mode Cr) as N. cbn [h_mode] in N. destruct (h_mode root); try reflexivity. now elim N.
Qed.


Lemma ok_hyps d : dataset_ok d -> d_shape d = op_shape o -> d_chunks d = op_chunks o -> k_delim (d_key d) = k_delim (op_keys o) ->
  length ch = length sh /\ (z = true -> good_separator delim /\ (delim = "/"%string \/ slash_free delim = true)).
Proof using F Z C.
  intros Ok E1 E2 E3. split.
  - pose proof (proj2 (do_dims Ok)) as Dm. rewrite E1, E2, (aa_shape asked), (aa_chunks asked) in Dm. apply all2_length in Dm. lia.
  - intros _. pose proof (do_sep Ok) as A. pose proof (do_path Ok) as B. rewrite E3, (aa_keys asked) in A, B. now split.
Qed.

(** The object after reopening is used like the one that was made. *)
Lemma life_read d (run : array_op -> action unit) : dataset_ok d -> d_shape d = op_shape o -> d_chunks d = op_chunks o -> k_delim (d_key d) = k_delim (op_keys o) ->
  (forall x st, alone_call M o (op_call x) st = amap (fun _ => AUnit) (run x) st) -> Forall (event_ok (h_path root) key o d) l ->
  forall st', foldS (fun _ x => run x) (array_ops l) tt no_files = (st', Ok tt) ->
  forall m, exists o', open_dataset t2 (Handle (h_path root) m) key = Ok o' /\ same_object (with_mode m o) o' /\
    forall ov off out, snd (tree_call M o' (KReadArray ov off out) t2) = snd (alone_call M o' (KReadArray ov off out) st').
Proof using F Kf Oo Df Z Fmt C Rc Rf.
  intros Ok E1 E2 E3 R H st' Run m. destruct (ok_hyps Ok E1 E2 E3) as [Len Dl].
  pose proof (@created_object_ok root key dn sh ch cn op fill delim fmt enc shard t t1 o z F Z Dl Len C) as ok.
  pose proof (@dataset_life M root key dn sh ch cn op fill delim fmt enc shard t t1 o z (map (event_step o) l) F Kf Oo Df Z Fmt Dl Len C Rc Rf) as L.
  pose proof (@alone_ops M o run (h_path root) key d R l H no_files st' Run) as Fin.
  destruct (history (run_step M) (map (event_step o) l) t1) as [t2' a]. cbn [fst].
  destruct L as (_ & D2 & C2 & Op).
  { apply Forall_map. eapply Forall_impl; [|exact H]. intros e. apply event_life; [exact ok|now rewrite E1]. }
  rewrite Fin in C2. destruct (Op m) as (o' & E & S & G). exists o'. split; [exact E|]. split; [exact S|].
  intros ov off out. pose proof (@tree_call_alone M o' (KReadArray ov off out) t2' st' (sg_ok G) I) as Y.
  rewrite grid_dataset, grid_chunks in Y by exact G. rewrite (sg_path G) in Y. specialize (Y D2 C2).
  destruct (alone_call M o' (KReadArray ov off out) st'), (tree_call M o' (KReadArray ov off out) t2'). cbn [snd]. apply Y.
Qed.

Theorem array_life : dataset_ok (array_of M o) -> op_shard o = [] -> Forall (event_ok (h_path root) key o (array_of M o)) l ->
  forall m, exists o', open_dataset t2 (Handle (h_path root) m) key = Ok o' /\
    forall ov off out, region_ok (array_of M o) off (v_shape ov) -> out_view_ok ov (lenN out) -> exists out',
      snd (tree_call M o' (KReadArray ov off out) t2) = Ok (ACells false out') /\
      holds_region (array_of M o) (apply_ops (array_of M o) (array_ops l) (fun _ => d_fill (array_of M o))) ov off out out'.
Proof using F Kf Oo Df Z Fmt C Rc Rf Mc.
  intros Okd Pl H m.
  assert (Ops : Forall (array_op_ok (array_of M o)) (array_ops l)).
  { clear - H. induction H as [|e l E H IH]; [constructor|]. destruct e; cbn [array_ops]; auto. }
  destruct (@array_theorem (array_of M o) Okd (array_ops l) no_files created_writable Ops (fun _ _ => eq_refl)) as (st' & Run & Read & _).
  destruct (@life_read (array_of M o) (run_array_op (array_of M o))) with (st' := st') (m := m) as (o' & E & S & Rd); auto.
  { intros x st. unfold alone_call. rewrite Pl. destruct x; reflexivity. }
  exists o'. split; [exact E|]. intros ov off out Rg Ov. destruct (Read ov off out Rg Ov) as (out' & X & Y). exists out'. split; [|exact Y].
  rewrite Rd. unfold alone_call. rewrite (so_shard S). cbn [with_mode op_shard]. rewrite Pl. cbn [fs_call snd].
  rewrite (sc_read (@same_object_calls (m_elem M) (m_fill M) (m_codec M) (with_mode m o) o' S Mc)).
  change (read_subarray (dataset_of (m_elem M) (m_fill M) (m_codec M) (with_mode m o)) st' ov off out) with (read_subarray (array_of M o) st' ov off out). now rewrite X.
Qed.

Theorem shard_life sd : op_shard o <> [] -> open_sharded (array_of M o) (op_shard o) = Ok sd -> sharded_ok sd -> Forall (event_ok (h_path root) key o (sd_base sd)) l ->
  forall m, exists o', open_dataset t2 (Handle (h_path root) m) key = Ok o' /\
    forall ov off out, region_ok (sd_base sd) off (v_shape ov) -> out_view_ok ov (lenN out) -> exists out',
      snd (tree_call M o' (KReadArray ov off out) t2) = Ok (ACells false out') /\
      holds_region (sd_base sd) (apply_ops (sd_base sd) (array_ops l) (fun _ => d_fill (sd_base sd))) ov off out out'.
Proof using F Kf Oo Df Z Fmt C Rc Rf Mc.
  intros Sh Op Oks H m.
  assert (Ops : Forall (array_op_ok (sd_base sd)) (array_ops l)).
  { clear - H. induction H as [|e l E H IH]; [constructor|]. destruct e; cbn [array_ops]; auto. }
  assert (Eb : sd_base sd = Dataset (op_shape o) (op_chunks o) (KeyConfig true (k_delim (op_keys o)) (k_format (op_keys o)) (k_encoding (op_keys o)))
        (m_elem M (op_dtype o)) (m_fill M (op_dtype o) (op_fill o)) (m_codec M (op_codec o)) (op_mode o)).
  { unfold open_sharded in Op. destruct (chunks_per_shard _ _) as [cps| |]; try discriminate. injection Op as <-. reflexivity. }
  assert (W : can_write (d_mode (sd_base sd)) = true) by (rewrite Eb; apply created_writable).
  destruct (@sharded_theorem sd (array_ops l) no_files Oks W Ops (fun _ _ => eq_refl)) as (st' & Run & Read & _).
  assert (Sc : op_shard o <> [] -> exists a r, op_shard o = a :: r) by (intros N; destruct (op_shard o); [congruence|eauto]).
  destruct (Sc Sh) as (a & r & Es).
  destruct (@life_read (sd_base sd) (run_sharded_op sd)) with (st' := st') (m := m) as (o' & E & S & Rd); auto.
  { apply (so_base Oks). }
  { now rewrite Eb. }
  { now rewrite Eb. }
  { now rewrite Eb. }
  { intros x st. unfold alone_call. rewrite Es in Op |- *. rewrite Op. destruct x; reflexivity. }
  exists o'. split; [exact E|]. intros ov off out Rg Ov. destruct (Read ov off out Rg Ov) as (out' & X & Y). exists out'. split; [|exact Y].
  rewrite Rd. unfold alone_call. pose proof (so_shard S) as Es'. cbn [with_mode op_shard] in Es'. rewrite Es', Es.
  assert (Zk : k_zarr (op_keys o) = true).
  { destruct (ok_hyps (so_base Oks)) as [Len Dl]; [now rewrite Eb|now rewrite Eb|now rewrite Eb|].
    apply (oo_sharded (@created_object_ok root key dn sh ch cn op fill delim fmt enc shard t t1 o z F Z Dl Len C) Sh). }
  pose proof (@same_object_shard_calls (m_elem M) (m_fill M) (m_codec M) (with_mode m o) o' S Mc Zk) as SC. cbn [with_mode op_shard] in SC. rewrite Es', Es in SC.
  unfold open_sharded in Op. rewrite Es in Op. unfold open_sharded at 1 in SC.
  change (d_chunks (dataset_of (m_elem M) (m_fill M) (m_codec M) (with_mode m o))) with (d_chunks (array_of M o)) in SC.
  destruct (chunks_per_shard _ _) as [cps| |]; try discriminate. injection Op as <-. cbn [bind] in SC.
  unfold array_of at 1. unfold abind, aret. destruct (open_sharded _ _) as [sd'| |]; try contradiction. cbn [fs_sh_call snd]. rewrite (ss_read SC).
  match goal with |- omap _ ?x = _ => replace x with (Ok out') by (rewrite <- X; reflexivity) end. reflexivity.
Qed.
End Life.
