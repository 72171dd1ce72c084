(** Proofs about the python containers: creating groups and datasets. *)
From Coq Require Import ZArith Ascii String.
From Verif Require Import M_Base P_Base M_Double M_Json M_Mode M_Key S_Text P_Key M_Blocking M_Metadata S_Metadata P_Metadata
  M_Fs M_Attributes S_Attributes P_Attributes M_Container S_Container P_Container P_Container2 P_Container3
  M_PyGroup S_PyGroup P_PyGroup.
Import ListNotations.
Local Open Scope list_scope.
Local Open Scope N_scope.

(** * Growing *)

Lemma grown_refl p s : grown p s s.
Proof. split; reflexivity. Qed.
Lemma grown_trans p s1 s2 s3 : grown p s1 s2 -> grown p s2 s3 -> grown p s1 s3.
Proof.
  intros [A B] [C D]. split; intros q H; [|now rewrite D, B].
  rewrite C; [now apply A|]. now rewrite A.
Qed.
Lemma below_trans p q r : below p q = true -> below q r = true -> below p r = true.
Proof. rewrite !below_spec. intros [x ->] [y ->]. exists (x ++ y). now rewrite app_assoc. Qed.
Lemma grown_up p q s s' : below p q = true -> grown q s s' -> grown p s s'.
Proof.
  intros B [A C]. split; [exact A|]. intros r N. apply C. destruct (below q r) eqn:E; [|reflexivity].
  now rewrite (below_trans B E) in N.
Qed.
Lemma usable_proper key : Forall usable key -> Forall proper key.
Proof. intros H. eapply Forall_impl; [|exact H]. now intros a [A _]. Qed.

Lemma reserved_kept p x r a s s' : usable x -> In a reserved_names -> grown (p ++ x :: r) s s' ->
  s' (p ++ [a]) = s (p ++ [a]).
Proof.
  intros [_ U] I [_ G]. apply G. rewrite app_below. cbn [below]. destruct (String.eqb_spec x a) as [->|]; [tauto|reflexivity].
Qed.
Lemma above_kept p x r s s' : grown (p ++ x :: r) s s' -> s' p = s p.
Proof.
  intros [_ G]. apply G. apply below_antisym'; [apply below_app|].
  intros E. assert (X : p ++ [] = p ++ x :: r) by now rewrite app_nil_r. apply app_inv_head in X. discriminate.
Qed.

Ltac reserved := unfold reserved_names; cbn [In]; tauto.

(** The group [p] and its kind do not notice nodes appearing inside. *)
Lemma grown_zarr p x r s s' : usable x -> grown (p ++ x :: r) s s' -> is_zarr_group s' p = is_zarr_group s p.
Proof.
  intros U G. unfold is_zarr_group, fs_exists. rewrite (above_kept G).
  rewrite (@reserved_kept p x r ".zgroup"%string s s') by (assumption || reserved).
  rewrite (@reserved_kept p x r "zarr.json"%string s s') by (assumption || reserved). reflexivity.
Qed.

Lemma grown_sub_group root k y x r s s' : usable y -> usable x -> grown (root ++ (y :: k) ++ x :: r) s s' ->
  is_sub_group s' root (y :: k) = is_sub_group s root (y :: k).
Proof.
  intros Uy Ux G. unfold is_sub_group.
  assert (G2 := G). rewrite app_assoc in G2. cbn [List.app] in G.
  rewrite (grown_zarr Uy G). rewrite !(app_assoc root). unfold fs_exists, read_doc_or, read_doc.
  rewrite (above_kept G2).
  rewrite (@reserved_kept _ x r ".zgroup"%string s s' Ux) by (assumption || reserved).
  rewrite (@reserved_kept _ x r "zarr.json"%string s s' Ux) by (assumption || reserved).
  rewrite (@reserved_kept _ x r "attributes.json"%string s s' Ux) by (assumption || reserved). reflexivity.
Qed.

Lemma dirs_above s p q : fs_ok s -> s p = Some NDir -> below q p = true -> s q = Some NDir.
Proof.
  intros F D B. apply below_spec in B. destruct B as [r ->]. destruct r as [|a r]; [now rewrite app_nil_r in D|].
  apply (@fs_ok_below s q (a :: r) F); [congruence|discriminate].
Qed.

Lemma group_made_grown s s' p x z fmt : fs_ok s -> s p = Some NDir -> s (p ++ [x]) = None ->
  group_made s s' (p ++ [x]) z fmt -> grown (p ++ [x]) s s'.
Proof.
  intros F D A G. split.
  - intros q N. destruct (below (p ++ [x]) q) eqn:B; [now rewrite (fs_ok_absent F A B) in N|].
    destruct (below q (p ++ [x])) eqn:B2; [|now apply (gm_frame G)].
    rewrite (gm_dirs G B2). symmetry. apply (dirs_above F D). apply (@below_parent q p x B2).
    intros ->. now rewrite below_refl in B.
  - intros q B. destruct (below q (p ++ [x])) eqn:B2; [|now apply (gm_frame G)].
    rewrite (gm_dirs G B2). symmetry. apply (dirs_above F D). apply (@below_parent q p x B2).
    intros ->. now rewrite below_refl in B.
Qed.

Lemma fresh_grown s s' p x name j : fs_ok s -> s p = Some NDir -> s (p ++ [x]) = None ->
  fresh_container s s' (p ++ [x]) name j -> grown (p ++ [x]) s s'.
Proof.
  intros F D A G.
  assert (X : forall q, below (p ++ [x]) q = false -> s' q = s q).
  { intros q B. rewrite G, B. destruct (below q (p ++ [x])) eqn:B2.
    - symmetry. apply (dirs_above F D). apply (@below_parent q p x B2). intros ->. now rewrite below_refl in B.
    - rewrite path_eqb_ne; [reflexivity|]. intros ->. now rewrite below_app in B. }
  split; [|exact X]. intros q N. apply X. destruct (below (p ++ [x]) q) eqn:B; [|reflexivity].
  now rewrite (fs_ok_absent F A B) in N.
Qed.

Lemma made_zarr s s' p z fmt : group_made s s' p z fmt -> is_zarr_group s' p = Ok z.
Proof.
  intros G. unfold is_zarr_group, fs_exists. rewrite (gm_dirs G (below_refl p)). cbn [negb].
  destruct z.
  - assert (E := gm_doc G eq_refl). cbn [new_doc] in E. destruct (fmt =? 3)%Z; cbn [fst snd] in E; rewrite E; [apply f_equal, orb_true_r|reflexivity].
  - rewrite (@gm_empty _ _ _ _ _ G ".zgroup"%string []), (@gm_empty _ _ _ _ _ G "zarr.json"%string []); [reflexivity|intros [X _]; discriminate|intros [X _]; discriminate].
Qed.

Lemma usable_key_free x r : usable x -> key_free (x :: r).
Proof. intros [_ U]. split; intros ->; apply U; reserved. Qed.

(** * require_group *)

Lemma create_group_tree h key fmt s : fs_ok s -> fs_ok (fst (create_group h key fmt s)).
Proof.
  intros F. destruct h as [p m]. apply (@ccall_tree m (CCreateGroup p key fmt) s F). intros q E. discriminate.
Qed.

Record required (s s' : fsys) (g : pygroup) (x : string) (z : bool) (g' : pygroup) : Prop := {
  rq_tree : fs_ok s';
  rq_handle : pg_handle g' = Handle (h_path (pg_handle g) ++ [x]) (h_mode (pg_handle g));
  rq_name : pg_name g' = sub_name g x;
  rq_sep : pg_sep g' = pg_sep g;
  rq_format : pg_format g' = pg_format g;
  rq_grown : grown (h_path (pg_handle g) ++ [x]) s s';
  rq_dir : s' (h_path (pg_handle g) ++ [x]) = Some NDir;
  rq_zarr : is_zarr_group s' (h_path (pg_handle g) ++ [x]) = Ok z;
  rq_group : is_sub_group s' (h_path (pg_handle g)) [x] = Ok true
}.

Lemma name_of_one x : name_of [x] = x.
Proof. reflexivity. Qed.

Lemma require_step g x s s' g' z : fs_ok s -> usable x ->
  s (h_path (pg_handle g)) = Some NDir -> is_zarr_group s (h_path (pg_handle g)) = Ok z ->
  s (h_path (pg_handle g) ++ [x]) = None \/ is_zarr_group s (h_path (pg_handle g) ++ [x]) = Ok z ->
  py_require_group g x s = (s', Ok g') -> required s s' g x z g'.
Proof.
  intros F U D Z Zx R. set (p := h_path (pg_handle g)) in *.
  assert (PK : Forall proper [x]) by (constructor; [apply U|constructor]).
  assert (NE : [x] <> []) by discriminate.
  unfold py_require_group in R.
  assert (C := contains_plain NE PK s g). rewrite name_of_one in C. fold p in C. rewrite C in R.
  destruct (fs_isdir s (p ++ [x])) eqn:ID.
  - unfold fbind, freading in R.
    assert (SG := is_sub_group_plain NE PK s (pg_handle g)). rewrite name_of_one in SG. fold p in SG. rewrite SG in R.
    destruct (is_sub_group s p [x]) as [[|]| |] eqn:E; cbn in R; try discriminate R. inversion R; subst s' g'.
    assert (J := join_plain p NE PK). rewrite name_of_one in J.
    assert (DX : s (p ++ [x]) = Some NDir) by (unfold fs_isdir in ID; destruct (s (p ++ [x])) as [[| |]|]; congruence).
    split; try assumption; try reflexivity.
    + cbn [pg_handle py_subgroup]. fold p. now rewrite J.
    + apply grown_refl.
    + destruct Zx as [Zx|Zx]; [congruence|assumption].
  - destruct (negb _) in R; [discriminate R|]. unfold fbind in R.
    assert (CG := create_group_plain NE PK (pg_handle g) (pg_format g) s). rewrite name_of_one in CG. rewrite CG in R.
    destruct (create_group (pg_handle g) [x] (pg_format g) s) as [s1 [[]| |]] eqn:E; cbn in R; try discriminate R.
    inversion R; subst s' g'. clear R.
    assert (T := create_group_tree (pg_handle g) [x] (pg_format g) F). rewrite E in T. cbn [fst] in T.
    destruct (create_group_made F E) as [z' [Z' [A G]]]. fold p in Z', A, G. rewrite Z in Z'. inversion Z'; subst z'.
    split; try assumption; try reflexivity.
    + now apply (group_made_grown F D A G).
    + apply (gm_dirs G (below_refl _)).
    + apply (made_zarr G).
    + apply (new_group_is_group F (usable_key_free [] U) E).
Qed.

(** * The groups on the way *)

Lemma sub_group_shift s p x k z : is_zarr_group s p = Ok z -> is_zarr_group s (p ++ [x]) = Ok z ->
  is_sub_group s p (x :: k) = is_sub_group s (p ++ [x]) k.
Proof.
  intros A B. unfold is_sub_group. rewrite A, B. cbn [bind].
  change (x :: k) with ([x] ++ k). now rewrite !app_assoc.
Qed.
Lemma open_shift s h x k z : is_zarr_group s (h_path h) = Ok z -> is_zarr_group s (h_path h ++ [x]) = Ok z ->
  open_dataset s h (x :: k) = open_dataset s (Handle (h_path h ++ [x]) (h_mode h)) k.
Proof.
  intros A B. unfold open_dataset. cbn [h_path h_mode]. rewrite A, B. cbn [bind].
  change (x :: k) with ([x] ++ k). now rewrite !app_assoc.
Qed.

Fixpoint deep_name (n : string) (l : path) : string :=
  match l with [] => n | x :: r => deep_name (n ++ "/" ++ x)%string r end.

Record on_the_way (s s' : fsys) (g : pygroup) (front : path) (z : bool) (g' : pygroup) : Prop := {
  ow_tree : fs_ok s';
  ow_handle : pg_handle g' = Handle (h_path (pg_handle g) ++ front) (h_mode (pg_handle g));
  ow_name : pg_name g' = deep_name (pg_name g) front;
  ow_sep : pg_sep g' = pg_sep g;
  ow_format : pg_format g' = pg_format g;
  ow_grown : match front with [] => s' = s | x :: _ => grown (h_path (pg_handle g) ++ [x]) s s' end;
  ow_dir : s' (h_path (pg_handle g) ++ front) = Some NDir;
  ow_groups : forall k1 k2, front = k1 ++ k2 ->
    is_zarr_group s' (h_path (pg_handle g) ++ k1) = Ok z /\
    (k1 <> [] -> is_sub_group s' (h_path (pg_handle g)) k1 = Ok true)
}.

Lemma require_groups_ok front : forall g s s' g' z, fs_ok s -> Forall usable front ->
  s (h_path (pg_handle g)) = Some NDir -> uniform s (h_path (pg_handle g)) z front ->
  py_require_groups g front s = (s', Ok g') -> on_the_way s s' g front z g'.
Proof.
  induction front as [|x front IH]; intros g s s' g' z F U D [Z UN] R.
  - cbn in R. inversion R; subst. split; try reflexivity; try assumption.
    + rewrite app_nil_r. now destruct (pg_handle g').
    + now rewrite app_nil_r.
    + intros k1 k2 E. symmetry in E. apply app_eq_nil in E. destruct E as [-> ->]. rewrite app_nil_r. now split.
  - cbn [py_require_groups] in R. unfold fbind in R.
    destruct (py_require_group g x s) as [s1 [g1| |]] eqn:R1; try discriminate R.
    inversion U as [|? ? Ux Uf]; subst.
    assert (Q := @require_step g x s s1 g1 z F Ux D Z (UN [x] front eq_refl) R1).
    assert (H1 := rq_handle Q). set (p := h_path (pg_handle g)) in *.
    assert (P1 : h_path (pg_handle g1) = p ++ [x]) by now rewrite H1.
    assert (Z1 : is_zarr_group s1 p = Ok z) by (rewrite <- Z; exact (grown_zarr Ux (rq_grown Q))).
    assert (I : on_the_way s1 s' g1 front z g').
    { apply IH; try assumption; [apply Q|rewrite P1; apply Q|]. rewrite P1. split; [apply Q|].
      intros k1 k2 E. rewrite <- app_assoc. cbn [List.app].
      destruct k1 as [|y k1]; [right; apply Q|].
      assert (E2 : x :: front = (x :: y :: k1) ++ k2) by (cbn [List.app]; now rewrite E).
      assert (Ny : (x :: y :: k1) <> []) by discriminate.
      destruct (UN (x :: y :: k1) k2 E2) as [Y|Y].
      - destruct (s1 (p ++ x :: y :: k1)) as [n|] eqn:N1; [|now left]. exfalso.
        (* nothing but documents appears below a new group *)
        clear IH R.
        assert (FY : usable y). { rewrite E in Uf. now inversion Uf. }
        assert (K := R1). unfold py_require_group in K.
        assert (PK : Forall proper [x]) by (constructor; [apply Ux|constructor]).
        assert (C := contains_plain (key := [x]) ltac:(discriminate) PK s g). rewrite name_of_one in C. fold p in C. rewrite C in K.
        destruct (fs_isdir s (p ++ [x])).
        { unfold fbind, freading in K. destruct (h_is_sub_group s (pg_handle g) x) as [[|]| |]; inversion K; subst. congruence. }
        destruct (negb _) in K; [discriminate K|]. unfold fbind in K.
        assert (CG := create_group_plain (key := [x]) ltac:(discriminate) PK (pg_handle g) (pg_format g) s).
        rewrite name_of_one in CG. rewrite CG in K.
        destruct (create_group (pg_handle g) [x] (pg_format g) s) as [s2 [[]| |]] eqn:E3; cbn in K; try discriminate K.
        inversion K; subst s2. destruct (create_group_made F E3) as [z' [Z' [A G]]]. fold p in A, G.
        change (x :: y :: k1) with ([x] ++ y :: k1) in N1. rewrite app_assoc in N1.
        rewrite (gm_empty G) in N1; [discriminate|]. intros [_ X]. destruct FY as [_ FY]. apply FY.
        apply (f_equal (@hd string EmptyString)) in X. cbn [hd] in X. rewrite X. unfold new_doc. destruct z'; [destruct (pg_format g =? 3)%Z|]; cbn [fst]; reserved.
      - right. rewrite <- Y.
        assert (EX : s (p ++ x :: y :: k1) <> None) by now apply (zarr_root_exists Y).
        (* it existed before, so nothing was created *)
        destruct Q as [_ _ _ _ _ [Q1 Q2] _ _ _].
        assert (SX : s (p ++ [x]) = Some NDir).
        { apply (@fs_ok_below s (p ++ [x]) (y :: k1) F); [|discriminate]. now rewrite <- app_assoc. }
        assert (K := R1). unfold py_require_group in K.
        assert (PK : Forall proper [x]) by (constructor; [apply Ux|constructor]).
        assert (C := contains_plain (key := [x]) ltac:(discriminate) PK s g). rewrite name_of_one in C. fold p in C. rewrite C in K.
        unfold fs_isdir in K. rewrite SX in K. unfold fbind, freading in K.
        destruct (h_is_sub_group s (pg_handle g) x) as [[|]| |]; inversion K; subst. reflexivity. }
    assert (IH2 := ow_handle I). rewrite P1 in IH2.
    assert (GR : grown (p ++ [x]) s1 s').
    { pose proof (ow_grown I) as G. destruct front as [|y front]; [subst; apply grown_refl|].
      rewrite P1 in G. apply (@grown_up (p ++ [x]) ((p ++ [x]) ++ [y])); [apply below_app|exact G]. }
    assert (Zp : is_zarr_group s' p = Ok z) by (rewrite <- Z1; exact (grown_zarr Ux GR)).
    split; fold p.
    + apply I.
    + rewrite IH2, H1. cbn [h_mode]. now rewrite <- app_assoc.
    + rewrite (ow_name I), (rq_name Q). reflexivity.
    + rewrite (ow_sep I). apply Q.
    + rewrite (ow_format I). apply Q.
    + exact (grown_trans (rq_grown Q) GR).
    + pose proof (ow_dir I) as X. rewrite P1, <- app_assoc in X. exact X.
    + intros k1 k2 E. destruct k1 as [|y k1].
      * split; [now rewrite app_nil_r|congruence].
      * cbn [List.app] in E. injection E as <- E. destruct (@ow_groups _ _ _ _ _ _ I k1 k2 E) as [X1 X2]. rewrite P1 in X1, X2.
        rewrite <- app_assoc in X1. cbn [List.app] in X1. split; [exact X1|]. intros _.
        destruct (@ow_groups _ _ _ _ _ _ I [] front eq_refl) as [X3 _]. rewrite P1, app_nil_r in X3.
        destruct k1 as [|y k1].
        -- destruct front as [|y front].
           ++ pose proof (ow_grown I) as G. cbn in G. subst s1. apply Q.
           ++ pose proof (ow_grown I) as G. rewrite P1 in G. rewrite <- app_assoc in G. cbn [List.app] in G.
              inversion Uf; subst. assert (G' : grown (p ++ ([x] ++ y :: [])) s1 s') by exact G.
              rewrite (@grown_sub_group p [] x y [] s1 s'); [apply Q|assumption|assumption|exact G'].
        -- rewrite (sub_group_shift (y :: k1) Zp X3). apply X2. discriminate.
Qed.

(** * Creating several levels at once *)

Lemma prefix_cases q : forall p x r, below q (p ++ x :: r) = true -> below q p = true \/ below (p ++ [x]) q = true.
Proof.
  induction q as [|b q IH]; intros p x r B; [left; reflexivity|].
  destruct p as [|a p]; cbn in *.
  - destruct (String.eqb b x) eqn:E; [|discriminate]. apply String.eqb_eq in E. subst. rewrite String.eqb_refl. now right.
  - destruct (String.eqb b a) eqn:E; [|discriminate]. apply String.eqb_eq in E. subst. rewrite String.eqb_refl. now apply (IH p x r).
Qed.

Lemma mkdirs_way p s s' q : fs_mkdirs p s = (s', Ok tt) -> below q p = true -> s q = None \/ s q = Some NDir.
Proof.
  unfold fs_mkdirs. destruct existsb eqn:E; [discriminate|]. intros _ B.
  destruct (s q) as [n|] eqn:N; [right|now left].
  destruct n; [reflexivity|exfalso|exfalso];
    (assert (X : existsb (fun q => fs_exists s q && negb (fs_isdir s q)) (prefixes p) = true);
     [apply existsb_exists; exists q; split; [now apply prefixes_below|unfold fs_exists, fs_isdir; now rewrite N]|congruence]).
Qed.

Lemma create_way root key dn sh ch cn op fill delim fmt enc shard s s' o q :
  create_dataset root key dn sh ch cn op fill delim fmt enc shard s = (s', Ok o) ->
  below q (h_path root ++ key) = true -> s q = None \/ s q = Some NDir.
Proof.
  unfold create_dataset. unfold fbind at 1, freading. destruct is_zarr_group as [z| |]; try discriminate.
  unfold fbind at 1, fret. destruct create_metadata as [m| |]; try discriminate.
  unfold fs_create_dataset, fbind at 1. destruct node_create as [s1 [[]| |]] eqn:E; try discriminate.
  intros _. unfold node_create in E. cbn [h_path h_mode] in E. destruct is_mode_r; [discriminate|].
  destruct fs_exists; [discriminate|]. now apply (mkdirs_way E).
Qed.

Lemma fresh_grown' s s' p x r name j : fs_ok s -> s p = Some NDir -> s (p ++ x :: r) = None ->
  (forall q, below q (p ++ x :: r) = true -> s q = None \/ s q = Some NDir) ->
  fresh_container s s' (p ++ x :: r) name j -> grown (p ++ [x]) s s'.
Proof.
  intros F D A W G. set (P := p ++ x :: r) in *.
  assert (BP : below (p ++ [x]) P = true).
  { unfold P. change (x :: r) with ([x] ++ r). rewrite app_assoc. apply below_app. }
  split.
  - intros q N. rewrite G. destruct (below q P) eqn:B.
    + destruct (W q B); congruence.
    + destruct (below P q) eqn:B2; [exfalso; apply N; exact (fs_ok_absent F A B2)|].
      rewrite path_eqb_ne; [reflexivity|]. intros ->. now rewrite below_app in B2.
  - intros q N. rewrite G. destruct (below q P) eqn:B.
    + symmetry. apply (dirs_above F D). destruct (@prefix_cases q p x r B) as [X|X]; [exact X|congruence].
    + destruct (below P q) eqn:B2; [now rewrite (below_trans BP B2) in N|].
      rewrite path_eqb_ne; [reflexivity|]. intros ->. now rewrite below_app in B2.
Qed.

Lemma wrap_int_is_int z : is_int (wrap_int z).
Proof. unfold is_int, wrap_int. assert (X := Z.mod_pos_bound (z + 2 ^ 31) (2 ^ 32) ltac:(lia)). lia. Qed.

Lemma sput_ok k x o : (forall z, x = OInt z -> is_int z) -> options_ok o -> options_ok (sput k x o).
Proof.
  intros Hx O k' z. induction o as [|[a b] o IHo]; cbn [sput].
  - intros [I|[]]. inversion I; subst. now apply Hx.
  - destruct (String.eqb a k).
    + intros [I|I]; [inversion I; subst; now apply Hx|]. apply (O k'). now right.
    + intros [I|I]; [apply (O k'); now left|]. apply IHo; [|assumption]. intros k2 z2 I2. apply (O k2). now right.
Qed.

Lemma json_options_ok l : forall o o', options_ok o -> json_options l o = Ok o' -> options_ok o'.
Proof.
  induction l as [|[k v] l IH]; intros o o' O E; cbn [json_options] in E; [now inversion E; subst|].
  destruct v; cbn [bind jget_int] in E; try discriminate E;
    (refine (IH _ _ _ E); apply sput_ok; [intros z' Y; inversion Y; apply wrap_int_is_int|exact O]).
Qed.

(** * Creating a dataset *)

Record made_in (s s' : fsys) (g : pygroup) (key : path) (a : ds_args) (d : pydataset)
    (sh : shape) (ty : string) (ch : shape) (z : bool) (comp : string) (copts : list (string * json)) (op : options)
    (delim enc : string) (shard : shape) : Prop := {
  mi_type : shape_and_dtype a = Ok (sh, ty);
  mi_chunks : chunks_for sh (a_chunks a) = Ok ch;
  mi_zarr : is_zarr_group s (h_path (pg_handle g)) = Ok z;
  mi_known : In ty py_dtypes;
  mi_shards : a_shards a <> None -> format_of z (pg_format g) = FZarr3;
  mi_comp : comp = match a_comp a with Some c => c | None => py_default_compressor (format_of z (pg_format g)) end;
  mi_avail : In comp (py_compressors (format_of z (pg_format g)));
  mi_copts : py_copts (format_of z (pg_format g)) comp (a_opts a) = Ok copts;
  mi_opts : json_options copts [] = Ok op;
  mi_delim : delim = match format_of z (pg_format g) with
                     | FZarr3 => (if String.eqb (a_enc a) "v2" then "." else "/")%string
                     | _ => pg_sep g
                     end;
  mi_enc : enc = match format_of z (pg_format g) with FZarr3 => a_enc a | _ => "default"%string end;
  mi_shard : shard = match a_shards a with Some x => x | None => [] end;
  mi_create : create_dataset (pg_handle g) key ty sh ch comp op (a_fill a) delim
                (dataset_format (format_of z (pg_format g))) enc shard s = (s', Ok (pd_impl d));
  mi_name : pd_name d = sub_name g (name_of key)
}.

Lemma existsb_string_In x l : existsb (String.eqb x) l = true -> In x l.
Proof. rewrite existsb_exists. intros [y [I E]]. apply String.eqb_eq in E. now subst. Qed.

Lemma create_in_inv g key a s s' d : key <> [] -> Forall proper key ->
  py_create_in g (name_of key) a s = (s', Ok d) ->
  exists sh ty ch z comp copts op delim enc shard, made_in s s' g key a d sh ty ch z comp copts op delim enc shard.
Proof.
  intros N P R. unfold py_create_in in R. unfold fbind at 1, fret at 1 in R.
  destruct (shape_and_dtype a) as [[sh ty]| |] eqn:ST; try discriminate R. unfold fbind at 1, fret at 1 in R.
  destruct (chunks_for sh (a_chunks a)) as [ch| |] eqn:CH; try discriminate R. unfold fbind at 1, freading at 1 in R.
  destruct (is_zarr_group s (h_path (pg_handle g))) as [z| |] eqn:Z; try discriminate R. unfold fbind at 1, fret at 1 in R.
  destruct (existsb (String.eqb ty) py_dtypes) eqn:TY; try discriminate R. unfold fbind at 1, fret at 1 in R.
  set (f := format_of z (pg_format g)) in *.
  set (comp := match a_comp a with Some c => c | None => py_default_compressor f end) in *.
  destruct (match a_shards a, f with None, _ | _, FZarr3 => Ok tt | Some _, _ => Throw EInvalidArgument end) as [[]| |] eqn:SH;
    try discriminate R. unfold fbind at 1, fret at 1 in R.
  destruct (existsb (String.eqb comp) (py_compressors f)) eqn:AV; try discriminate R. unfold fbind at 1, fret at 1 in R.
  destruct (py_copts f comp (a_opts a)) as [copts| |] eqn:CO; try discriminate R. unfold fbind at 1 in R.
  set (delim := match f with FZarr3 => (if String.eqb (a_enc a) "v2" then "." else "/")%string | _ => pg_sep g end).
  set (enc := match f with FZarr3 => a_enc a | _ => "default"%string end).
  set (shard := match a_shards a with Some x => x | None => [] end) in *.
  assert (SF : a_shards a <> None -> f = FZarr3).
  { intros X. destruct (a_shards a); [|congruence]. destruct f; try discriminate SH. reflexivity. }
  assert (SE : f <> FZarr3 -> shard = []).
  { intros X. unfold shard. destruct (a_shards a); [|reflexivity]. destruct X. apply SF. discriminate. }
  assert (R2 : (let (s1, r) := h_create_dataset (pg_handle g) (name_of key) ty sh ch comp copts (a_fill a) delim
                 (dataset_format f) enc shard s in
               match r with Ok o => (s1, Ok (PyDataset o (sub_name g (name_of key)))) | Throw e => (s1, Throw e) | UB => (s1, UB) end)
              = (s', Ok d)).
  { unfold delim, enc. destruct f; cbn [dataset_format].
    - rewrite SE by discriminate. destruct h_create_dataset as [s1 [| |]]; exact R.
    - rewrite SE by discriminate. destruct h_create_dataset as [s1 [| |]]; exact R.
    - destruct h_create_dataset as [s1 [| |]]; exact R. }
  rewrite (create_dataset_plain N P) in R2.
  destruct (json_options copts []) as [op| |] eqn:JO; try discriminate R2.
  destruct create_dataset as [s1 [o| |]] eqn:CD; try discriminate R2. inversion R2; subst s1 d.
  exists sh, ty, ch, z, comp, copts, op, delim, enc, shard.
  split; try assumption; try reflexivity; try (now apply existsb_string_In).
Qed.

Lemma create_dataset_tree h key dn sh ch cn op fill delim fmt enc shard s : fs_ok s ->
  fs_ok (fst (create_dataset h key dn sh ch cn op fill delim fmt enc shard s)).
Proof.
  intros F. destruct h as [p m].
  assert (X := @ccall_tree m (CCreateDataset p key dn sh ch cn op fill delim fmt enc shard) s F ltac:(intros; discriminate)).
  cbn in X. unfold drop, fbind in X. destruct create_dataset as [s1 [| |]]; exact X.
Qed.

Lemma usable_key key : key <> [] -> Forall usable key -> key_free key.
Proof. intros N U. destruct key as [|x r]; [congruence|]. inversion U. now apply usable_key_free. Qed.

Lemma getitem_plain s g key : key <> [] -> Forall proper key ->
  py_getitem s g (name_of key) =
  if fs_isdir s (h_path (pg_handle g) ++ key) then
    let! b := is_sub_group s (h_path (pg_handle g)) key in
    if b then Ok (PGroup (PyGroup (Handle (h_path (pg_handle g) ++ key) (h_mode (pg_handle g)))
                            (sub_name g (name_of key)) (pg_sep g) (pg_format g)))
    else let! o := open_dataset s (pg_handle g) key in Ok (PDataset (PyDataset o (sub_name g (name_of key))))
  else Throw ELogic.
Proof.
  intros N P. unfold py_getitem. rewrite contains_plain, lstrip_plain by assumption.
  destruct (fs_isdir _ _); [|reflexivity]. cbn [negb]. rewrite is_sub_group_plain by assumption.
  destruct is_sub_group as [[|]| |]; cbn [bind]; try reflexivity.
  - unfold py_subgroup. now rewrite join_plain.
  - unfold py_open_dataset. rewrite open_plain by assumption. destruct open_dataset; reflexivity.
Qed.

Lemma create_in_found g key a s s' d z : key <> [] -> Forall usable key ->
  fs_ok s -> s (h_path (pg_handle g)) = Some NDir -> is_zarr_group s (h_path (pg_handle g)) = Ok z ->
  dbl_ok (a_fill a) ->
  py_create_in g (name_of key) a s = (s', Ok d) ->
  recordable_codec z (dataset_format (format_of z (pg_format g))) (op_codec (pd_impl d)) ->
  recordable_fill z (op_dtype (pd_impl d)) (op_fill (pd_impl d)) ->
  found s s' g key d.
Proof.
  intros N U F D Z DF R RC RF. assert (P := usable_proper U).
  destruct (create_in_inv N P R) as [sh [ty [ch [z' [comp [copts [op [delim [enc [shard M]]]]]]]]]].
  assert (Z' := mi_zarr M). rewrite Z in Z'. inversion Z'; subst z'.
  assert (CD := mi_create M).
  assert (T := create_dataset_tree (pg_handle g) key ty sh ch comp op (a_fill a) delim
                 (dataset_format (format_of z (pg_format g))) enc shard F). rewrite CD in T. cbn [fst] in T.
  destruct (create_inv F CD) as [z' [m [j [_ [CM [CR _]]]]]]. cbn [h_path] in *.
  assert (A := cr_absent CR). assert (FR := cr_fs CR). cbn [h_path] in A, FR.
  assert (OK : options_ok op) by (apply (json_options_ok (l := copts) (o := [])); [intros k x []|apply M]).
  assert (FM : z = true -> dataset_format (format_of z (pg_format g)) = 2%Z \/ dataset_format (format_of z (pg_format g)) = 3%Z).
  { intros _. destruct (format_of z (pg_format g)); cbn; tauto. }
  assert (KF := usable_key N U).
  destruct (create_reopens F KF OK DF Z FM CD RC RF) as [o' [O S]].
  assert (NG := create_is_no_group F KF CD).
  split.
  - exact T.
  - destruct key as [|x r]; [congruence|]. cbn [firstn]. refine (fresh_grown' F D A _ FR).
    intros q B. exact (create_way CD B).
  - rewrite getitem_plain by assumption. unfold fs_isdir. rewrite FR, below_refl, NG. cbn [bind]. rewrite O. cbn [bind].
    eexists. split; [reflexivity|exact S].
  - assert (Q := created_as_asked F Z CD). apply Q.
Qed.

Lemma may_create_inv g name s s' u : py_may_create g name s = (s', Ok u) ->
  s' = s /\ can_write (h_mode (pg_handle g)) = true /\ py_contains s g name = false.
Proof.
  unfold py_may_create. destruct can_write; [|discriminate]. destruct py_contains; [discriminate|].
  intros E. now inversion E.
Qed.

Lemma uniform_front s p z front x : uniform s p z (front ++ [x]) -> uniform s p z front.
Proof. intros [Z U]. split; [exact Z|]. intros k1 k2 E. apply (U k1 (k2 ++ [x])). now rewrite E, app_assoc. Qed.

(** What create_dataset leaves behind. *)
Lemma sub_groups_shift s p z front k : is_zarr_group s p = Ok z -> is_zarr_group s (p ++ front) = Ok z ->
  is_sub_group s p (front ++ k) = is_sub_group s (p ++ front) k.
Proof. intros A B. unfold is_sub_group. rewrite A, B. cbn [bind]. now rewrite <- !app_assoc. Qed.
Lemma opens_shift s h z front k : is_zarr_group s (h_path h) = Ok z -> is_zarr_group s (h_path h ++ front) = Ok z ->
  open_dataset s h (front ++ k) = open_dataset s (Handle (h_path h ++ front) (h_mode h)) k.
Proof. intros A B. unfold open_dataset. cbn [h_path h_mode]. rewrite A, B. cbn [bind]. now rewrite <- !app_assoc. Qed.

Lemma isdir_some s p : s p = Some NDir -> fs_isdir s p = true.
Proof. intros E. unfold fs_isdir. now rewrite E. Qed.

Theorem create_dataset_made g key a s s' d z : key <> [] -> Forall usable key ->
  fs_ok s -> s (h_path (pg_handle g)) = Some NDir -> uniform s (h_path (pg_handle g)) z key ->
  dbl_ok (a_fill a) ->
  py_create_dataset g (name_of key) a s = (s', Ok d) ->
  recordable_codec z (dataset_format (format_of z (pg_format g))) (op_codec (pd_impl d)) ->
  recordable_fill z (op_dtype (pd_impl d)) (op_fill (pd_impl d)) ->
  made s s' g key d.
Proof.
  intros N U F D UN DF R RC RF. assert (P := usable_proper U).
  destruct (exists_last N) as [front [x ->]].
  apply Forall_app in U. destruct U as [Uf Ux]. inversion Ux as [|? ? Ux' _]; subst.
  apply Forall_app in P. destruct P as [Pf Px].
  unfold py_create_dataset in R. unfold fbind at 1 in R.
  destruct (py_may_create g (name_of (front ++ [x])) s) as [s0 [[]| |]] eqn:M; try discriminate R.
  apply may_create_inv in M. destruct M as [-> [CW NC]].
  rewrite lstrip_plain, split_name in R by (first [assumption|now apply Forall_app]).
  rewrite removelast_last, last_last in R.
  assert (UF := uniform_front UN).
  destruct front as [|y front].
  - cbn [List.app] in *. destruct UN as [Z _].
    assert (X := @create_in_found g [x] a s s' d z N (Forall_cons _ Ux' (Forall_nil _)) F D Z DF R RC RF).
    split; try apply X.
    + intros k1 k2 E N1 N2. destruct k1 as [|b k1]; [congruence|]. cbn in E. inversion E.
      symmetry in H1. apply app_eq_nil in H1. tauto.
    + intros k1 k2 E N2. destruct k1 as [|b k1].
      * rewrite app_nil_r. apply (@grown_zarr _ x []); [exact Ux'|]. apply (fo_grown X).
      * cbn in E. inversion E. symmetry in H1. apply app_eq_nil in H1. tauto.
  - set (fr := y :: front) in *.
    unfold fbind at 1 in R. destruct (py_require_groups g fr s) as [s1 [g1| |]] eqn:RG; try discriminate R.
    assert (W := @require_groups_ok fr g s s1 g1 z F Uf D UF RG).
    unfold fbind at 1 in R. destruct (py_may_create g1 x s1) as [s0 [[]| |]] eqn:M1; try discriminate R.
    apply may_create_inv in M1. destruct M1 as [-> [CW1 NC1]].
    set (p := h_path (pg_handle g)) in *.
    assert (H1 := ow_handle W). fold p in H1.
    assert (P1 : h_path (pg_handle g1) = p ++ fr) by now rewrite H1.
    assert (D1 : s1 (h_path (pg_handle g1)) = Some NDir) by (rewrite P1; apply W).
    destruct (@ow_groups _ _ _ _ _ _ W fr [] ltac:(now rewrite app_nil_r)) as [Z1 _]. fold p in Z1.
    destruct (@ow_groups _ _ _ _ _ _ W [] fr ltac:(reflexivity)) as [Z0 _]. fold p in Z0. rewrite app_nil_r in Z0.
    assert (FE := ow_format W).
    assert (X : found s1 s' g1 [x] d).
    { apply (@create_in_found g1 [x] a s1 s' d z); try assumption.
      - discriminate.
      - apply W.
      - now rewrite P1.
      - now rewrite FE.
    }
    assert (GX := fo_grown X). cbn [firstn] in GX. rewrite P1 in GX. unfold fr in GX.
    assert (GX1 : grown (p ++ [y]) s1 s').
    { apply (@grown_up (p ++ [y]) ((p ++ y :: front) ++ [x])); [|exact GX].
      change (y :: front) with ([y] ++ front). rewrite !app_assoc. rewrite <- (app_assoc (p ++ [y])). apply below_app. }
    assert (Uy : usable y) by (unfold fr in Uf; now inversion Uf).
    assert (GROUPS : forall k1 k2, fr = k1 ++ k2 ->
      is_zarr_group s' (p ++ k1) = Ok z /\ (k1 <> [] -> is_sub_group s' p k1 = Ok true) /\ s' (p ++ k1) = Some NDir).
    { intros k1 k2 E. destruct (@ow_groups _ _ _ _ _ _ W k1 k2 E) as [A B]. fold p in A, B.
      assert (GE : exists b r, usable b /\ grown (p ++ k1 ++ b :: r) s1 s').
      { destruct k2 as [|b k2].
        - exists x, []. split; [exact Ux'|]. rewrite app_nil_r in E. fold fr in GX. rewrite E in GX. now rewrite app_assoc.
        - exists b, (k2 ++ [x]). split.
          + rewrite E in Uf. apply Forall_app in Uf. destruct Uf as [_ Uf]. now inversion Uf.
          + fold fr in GX. rewrite E in GX. rewrite <- !app_assoc in GX. exact GX. }
      destruct GE as [b [r [Ub Gb]]]. repeat split.
      - rewrite <- A. apply (@grown_zarr _ b r); [exact Ub|]. now rewrite <- app_assoc.
      - intros N1. rewrite <- (B N1). destruct k1 as [|c k1]; [congruence|].
        apply (@grown_sub_group p k1 c b r); [|exact Ub|exact Gb].
        rewrite E in Uf. now inversion Uf.
      - destruct Gb as [Gb _]. rewrite Gb.
        + apply (dirs_above (ow_tree W) (ow_dir W)). fold p. rewrite E, app_assoc. apply below_app.
        + assert (Y : s1 (p ++ k1) = Some NDir); [|congruence].
          apply (dirs_above (ow_tree W) (ow_dir W)). fold p. rewrite E, app_assoc. apply below_app. }
    split; fold p.
    + apply X.
    + cbn [firstn List.app fr]. exact (grown_trans (ow_grown W) GX1).
    + destruct (fo_item X) as [d' [I S]]. change x with (name_of [x]) in I.
      rewrite getitem_plain in I by (discriminate || assumption).
      rewrite getitem_plain by (first [assumption|now apply Forall_app]). fold p.
      rewrite P1, <- app_assoc in I. destruct fs_isdir; [|discriminate I].
      destruct (GROUPS [] fr eq_refl) as [Zp _]. rewrite app_nil_r in Zp.
      destruct (GROUPS fr [] ltac:(now rewrite app_nil_r)) as [Zf _].
      rewrite (@sub_groups_shift s' p z fr [x] Zp Zf).
      destruct is_sub_group as [[|]| |]; cbn [bind] in *; try discriminate I.
      rewrite H1 in I. rewrite (@opens_shift s' (pg_handle g) z fr [x] Zp Zf). fold p.
      destruct open_dataset as [o| |]; cbn [bind] in *; try discriminate I. inversion I; subst d'.
      eexists. split; [reflexivity|]. exact S.
    + rewrite (fo_path X), P1. now rewrite <- app_assoc.
    + intros k1 k2 E N1 N2. destruct (exists_last N2) as [k3 [b ->]]. rewrite app_assoc in E.
      apply app_inj_tail in E. destruct E as [E _].
      destruct (GROUPS k1 k3 E) as [_ [B DD]].
      rewrite getitem_plain.
      * fold p. rewrite (isdir_some DD), (B N1). cbn [bind]. eexists. split; [reflexivity|]. repeat split.
      * exact N1.
      * rewrite E in Pf. now apply Forall_app in Pf.
    + intros k1 k2 E N2. destruct (exists_last N2) as [k3 [b ->]]. rewrite app_assoc in E.
      apply app_inj_tail in E. destruct E as [E _]. destruct (GROUPS k1 k3 E) as [Z2 _]. rewrite Z2. symmetry. apply UN.
Qed.
