(** A reader that knows nothing but the tree finds the array. *)
From Coq Require Import ZArith String Lia.
From Verif Require Import M_Base P_Base P_Blocking M_Text M_Double M_Json M_Mode M_Key M_View M_Blocking M_Metadata S_Metadata M_Format M_Bytes M_Shard M_Dataset M_Sharded M_Access M_Store M_N5Header
  M_Fs M_Attributes S_Attributes P_Attributes M_Container S_Container P_Container P_Container2 P_Container3 P_SameObject M_Tree S_Array S_Grid S_Bytes S_Text S_Format S_Dataset S_Access S_Sharded S_S3 S_Tree
  P_Key P_Dataset P_Access P_History P_Sharded P_Store P_S3 P_S3Sim P_TreeSim P_Tree P_Tree2 P_Tree3 P_Tree4 P_PyGroup2 P_PyGroup11
  S_Layout S_Interop P_Layout S_Document S_Described P_Document.
Import ListNotations.
Set Implicit Arguments.
Local Open Scope list_scope.
Local Open Scope N_scope.
Local Notation length := List.length.

Lemma node_docs q t t' : docs_same q t t' -> read_node t' q = read_node t q.
Proof. intros [_ H]. unfold read_node. rewrite !H by (cbn; tauto). reflexivity. Qed.

Lemma map2_length A B C (f : A -> B -> C) a b : length a = length b -> length (map2 f a b) = length a.
Proof. revert b. induction a as [|x a IH]; intros [|y b] H; cbn in *; try lia. f_equal. apply IH. lia. Qed.

Lemma in_shape_length s x : in_shape s x -> length x = length s.
Proof. intros H. apply Forall2_len in H. lia. Qed.

(** The reader looks at nothing but the files of chunks. *)
Lemma element_chunks d decode a b x : d_shape d <> [] -> length (d_chunks d) = length (d_shape d) -> in_shape (d_shape d) x ->
  (forall ids, length ids = length (d_shape d) -> a (chunk_key (d_key d) ids) = b (chunk_key (d_key d) ids)) ->
  element_at (view_of d decode) a x = element_at (view_of d decode) b x.
Proof.
  intros Nn Lc Hx H. apply in_shape_length in Hx.
  assert (L : length (map2 N.div x (d_chunks d)) = length (d_shape d)) by (rewrite map2_length; lia).
  assert (N : map2 N.div x (d_chunks d) <> []) by (intros E; rewrite E in L; destruct (d_shape d); [congruence|discriminate L]).
  specialize (H _ L). unfold element_at, view_of. cbn [de_layout de_chunks]. unfold layout_of. destruct (k_zarr (d_key d)) eqn:Z.
  - rewrite (name_zarr Z N) in H. destruct (k_format (d_key d) =? 3); cbn [andb] in H; now rewrite H.
  - rewrite (@name_n5 _ _ Z) in H. now rewrite H.
Qed.

Lemma element_shards sd decode a b x : d_shape (sd_base sd) <> [] -> length (d_chunks (sd_base sd)) = length (d_shape (sd_base sd)) ->
  length (sd_shard sd) = length (d_shape (sd_base sd)) -> k_zarr (d_key (sd_base sd)) = true -> in_shape (d_shape (sd_base sd)) x ->
  (forall ids, length ids = length (d_shape (sd_base sd)) -> a (chunk_key (d_key (sd_base sd)) ids) = b (chunk_key (d_key (sd_base sd)) ids)) ->
  element_at (sharded_view sd decode) a x = element_at (sharded_view sd decode) b x.
Proof.
  intros Nn Lc Ls Z Hx H. apply in_shape_length in Hx. unfold element_at, sharded_view, sharded_layout. cbn [de_layout de_chunks].
  set (c := map2 N.div x (d_chunks (sd_base sd))). set (per := map2 N.div (sd_shard sd) (d_chunks (sd_base sd))).
  assert (L : length (map2 N.div c per) = length (d_shape (sd_base sd))).
  { unfold c, per. rewrite !map2_length; try lia; rewrite ?map2_length; lia. }
  assert (N : map2 N.div c per <> []) by (intros E; rewrite E in L; destruct (d_shape (sd_base sd)); [congruence|discriminate L]).
  specialize (H _ L). rewrite (name_zarr Z N) in H. now rewrite H.
Qed.

Section Reader.
Variable M : meaning.
Variables (D : stream -> bytes -> N -> option bytes) (V : element -> fill -> list N).
Variables (root : handle) (key : path) (dn : string) (sh ch : shape) (cn : string) (op : options) (x0 : dbl) (delim : string) (fmt : Z) (enc : string) (shard : shape).
Variables (t t1 : fsys) (o : opened) (z : bool).
Hypothesis F : fs_ok t.
Hypothesis Kf : key_free key.
Hypothesis Oo : options_ok op.
Hypothesis Df : dbl_ok x0.
Hypothesis Z : is_zarr_group t (h_path root) = Ok z.
Hypothesis C : create_dataset root key dn sh ch cn op x0 delim fmt enc shard t = (t1, Ok o).
Hypothesis P : portable z fmt delim enc sh ch shard x0 o.
Hypothesis A : agree D V M o.
Variable l : list event.
Notation t2 := (fst (history (run_step M) (map (event_step o) l) t1)).

Lemma life_files d (run : array_op -> action unit) : dataset_ok d -> d_shape d = op_shape o -> d_chunks d = op_chunks o -> k_delim (d_key d) = k_delim (op_keys o) ->
  (forall x st, alone_call M o (op_call x) st = amap (fun _ => AUnit) (run x) st) -> Forall (event_ok (h_path root) key o d) l ->
  forall st', foldS (fun _ x => run x) (array_ops l) tt no_files = (st', Ok tt) ->
  object_ok o /\ read_node t2 (op_path o) = read_node t1 (op_path o) /\ same_chunks o st' (files_at (op_path o) t2).
Proof using F Kf Oo Df Z C P.
  intros Ok E1 E2 E3 R H st' Run.
  destruct (@ok_hyps root key dn sh ch cn op x0 delim fmt enc shard t t1 o z F Z C d Ok E1 E2 E3) as [Len Dl].
  destruct (@created_place root key dn sh ch cn op x0 delim fmt enc shard t t1 o z F Z Dl Len C) as (ok & Dp & Sc). split; [exact ok|].
  assert (Po : op_path o = h_path root ++ key) by apply (aa_path (@created_as_asked root key dn sh ch cn op x0 delim fmt enc shard t t1 o z F Z C)).
  assert (Kn : key <> []) by (intros ->; exact Kf).
  assert (H' : Forall (in_life (h_path root) key o) (map (event_step o) l)).
  { apply Forall_map. eapply Forall_impl; [|exact H]. intros e. apply event_life; [exact ok|now rewrite E1]. }
  destruct (@life_history M (h_path root) key o ok Po Kn _ H' t1 Dp) as (_ & _ & Dc).
  split; [rewrite Po; now apply node_docs|].
  pose proof (@dataset_life M root key dn sh ch cn op x0 delim fmt enc shard t t1 o z (map (event_step o) l) F Kf Oo Df Z (po_format P) Dl Len C (po_codec P) (po_fill P) H') as L.
  pose proof (@alone_ops M o run (h_path root) key d R l H no_files st' Run) as Fin.
  destruct (history (run_step M) (map (event_step o) l) t1) as [t2' a]. cbn [fst].
  destruct L as (_ & _ & C2 & _). now rewrite Fin in C2.
Qed.

Theorem reader_array : dataset_ok (array_of M o) -> op_shard o = [] -> Forall (event_ok (h_path root) key o (array_of M o)) l ->
  exists a, read_node t2 (op_path o) = Some a /\ fits a o /\
    forall x, in_shape (do_shape a) x -> exists v, element_at (seen D V a) (files_at (op_path o) t2) x = Some v /\
      same_value (array_of M o) v (apply_ops (array_of M o) (array_ops l) (fun _ => d_fill (array_of M o)) x) /\
      (t_float (m_elem M (op_dtype o)) = false -> v = apply_ops (array_of M o) (array_ops l) (fun _ => d_fill (array_of M o)) x).
Proof using F Kf Oo Df Z C P A.
  intros Okd Pl H.
  assert (Ops : Forall (array_op_ok (array_of M o)) (array_ops l)).
  { clear - H. induction H as [|e l E H IH]; [constructor|]. destruct e; cbn [array_ops]; auto. }
  assert (W : can_write (d_mode (array_of M o)) = true).
  { apply (@created_writable root key dn sh ch cn op x0 delim fmt enc shard t t1 o z F Z C). }
  destruct (@plain_layout (array_of M o) (D (stream_of (op_codec o))) (array_ops l) no_files Okd (ag_stream A) W Ops (fun _ _ => eq_refl)) as (st' & Run & Read).
  destruct (@life_files (array_of M o) (run_array_op (array_of M o))) with (st' := st') as (ok & En & Sc); auto.
  { intros x st. unfold alone_call. rewrite Pl. destruct x; reflexivity. }
  destruct (@written_fits t t1 root key dn sh ch cn op x0 delim fmt enc shard o z F Z C P) as (a & Ra & Fa & Nf).
  exists a. split; [now rewrite En|]. split; [exact Fa|]. intros x Hx. rewrite <- (fi_shape Fa) in Hx.
  destruct (Read x Hx) as (v & Ev & Sv). exists v. split; [|exact Sv]. rewrite <- Ev.
  assert (seen D V a = view_of (array_of M o) (D (stream_of (op_codec o)))) as ->.
  { unfold seen, view_of. pose proof (fi_layout Fa) as El. rewrite Pl in El. rewrite El, <- (fi_shape Fa), <- (fi_chunks Fa), <- (fi_stream Fa).
    rewrite (ag_width A (fi_elem Fa)), (ag_fill A (fi_elem Fa) Nf (fi_fill Fa)). reflexivity. }
  symmetry. apply element_chunks; [exact (oo_axes ok)|exact (oo_chunks ok)|exact Hx|]. intros ids Hi. exact (Sc ids Hi).
Qed.

Theorem reader_sharded sd : op_shard o <> [] -> open_sharded (array_of M o) (op_shard o) = Ok sd -> sharded_ok sd ->
  Forall (event_ok (h_path root) key o (sd_base sd)) l ->
  exists a, read_node t2 (op_path o) = Some a /\ fits a o /\
    forall x, in_shape (do_shape a) x -> exists v, element_at (seen D V a) (files_at (op_path o) t2) x = Some v /\
      same_value (sd_base sd) v (apply_ops (sd_base sd) (array_ops l) (fun _ => d_fill (sd_base sd)) x) /\
      (t_float (m_elem M (op_dtype o)) = false -> v = apply_ops (sd_base sd) (array_ops l) (fun _ => d_fill (sd_base sd)) x).
Proof using F Kf Oo Df Z C P A.
  intros Sh Op Oks H.
  assert (Ops : Forall (array_op_ok (sd_base sd)) (array_ops l)).
  { clear - H. induction H as [|e l E H IH]; [constructor|]. destruct e; cbn [array_ops]; auto. }
  assert (Eb : sd_base sd = Dataset (op_shape o) (op_chunks o) (KeyConfig true (k_delim (op_keys o)) (k_format (op_keys o)) (k_encoding (op_keys o)))
        (m_elem M (op_dtype o)) (m_fill M (op_dtype o) (op_fill o)) (m_codec M (op_codec o)) (op_mode o)).
  { unfold open_sharded in Op. destruct (chunks_per_shard _ _) as [cps| |]; try discriminate. injection Op as <-. reflexivity. }
  assert (Es : sd_shard sd = op_shard o).
  { unfold open_sharded in Op. destruct (chunks_per_shard _ _) as [cps| |]; try discriminate. injection Op as <-. reflexivity. }
  assert (W : can_write (d_mode (sd_base sd)) = true).
  { rewrite Eb. apply (@created_writable root key dn sh ch cn op x0 delim fmt enc shard t t1 o z F Z C). }
  assert (Un : undoes (prod (d_chunks (sd_base sd)) * t_width (d_type (sd_base sd))) (D (stream_of (op_codec o))) (d_codec (sd_base sd))).
  { rewrite Eb. exact (ag_stream A). }
  destruct (@sharded_layout_theorem sd (D (stream_of (op_codec o))) (array_ops l) no_files Oks Un W Ops (fun _ _ => eq_refl)) as (st' & Run & Read).
  assert (exists b r, op_shard o = b :: r) as (b & r & Eo) by (destruct (op_shard o); [congruence|eauto]).
  destruct (@life_files (sd_base sd) (run_sharded_op sd)) with (st' := st') as (ok & En & Sc); auto.
  { apply (so_base Oks). }
  { now rewrite Eb. }
  { now rewrite Eb. }
  { now rewrite Eb. }
  { intros x st. unfold alone_call. rewrite Eo in Op |- *. rewrite Op. destruct x; reflexivity. }
  destruct (@written_fits t t1 root key dn sh ch cn op x0 delim fmt enc shard o z F Z C P) as (a & Ra & Fa & Nf).
  exists a. split; [now rewrite En|]. split; [exact Fa|]. intros x Hx. rewrite <- (fi_shape Fa) in Hx.
  assert (Hx' : in_shape (d_shape (sd_base sd)) x) by now rewrite Eb.
  destruct (Read x Hx') as (v & Ev & Sv). exists v. split; [|rewrite Eb in Sv |- *; exact Sv]. rewrite <- Ev.
  assert (seen D V a = sharded_view sd (D (stream_of (op_codec o)))) as ->.
  { unfold seen, sharded_view. pose proof (fi_layout Fa) as El. rewrite Eo in El. rewrite El, <- (fi_shape Fa), <- (fi_chunks Fa), <- (fi_stream Fa).
    rewrite (ag_width A (fi_elem Fa)), (ag_fill A (fi_elem Fa) Nf (fi_fill Fa)), Es, Eo, Eb. reflexivity. }
  symmetry. apply element_shards; rewrite ?Eb, ?Es; cbn [d_shape d_chunks d_key k_zarr];
    [exact (oo_axes ok)|exact (oo_chunks ok)| |reflexivity|exact Hx|].
  - destruct (all3_length (so_cps Oks)) as [_ X]. rewrite Es, Eb in X. cbn [d_chunks] in X. rewrite X. exact (oo_chunks ok).
  - intros ids Hi. specialize (Sc ids Hi). pose proof (oo_sharded ok Sh) as Kz. destruct (op_keys o) as [kz kd kf ke]. cbn [k_zarr] in Kz. subst kz. exact Sc.
Qed.
End Reader.
