(** Proofs about the python containers: passing settings back. *)
From Coq Require Import ZArith Ascii String.
From Verif Require Import M_Base P_Base M_Double M_Json M_Mode M_Key S_Text P_Key M_Blocking M_Metadata S_Metadata P_Metadata
  M_Fs M_Attributes S_Attributes P_Attributes M_Container S_Container P_Container P_Container2 P_Container3
  M_PyGroup S_PyGroup P_PyGroup P_PyGroup2 P_PyGroup3 P_PyGroup4 P_PyGroup5.
Import ListNotations.
Local Open Scope list_scope.
Local Open Scope N_scope.

Lemma zarr_of_format z fmt : zarr_of (format_of z fmt) = z.
Proof. unfold format_of. destruct z; [destruct (_ =? _)%Z|]; reflexivity. Qed.

Lemma level_plain l : is_int l -> plain_options [("level"%string, JInt l)].
Proof.
  intros I. split; [|split; [|split; reflexivity]].
  - intros k z. cbn [sfind]. destruct (String.eqb "level" k); intros E; [now inversion E; subst|discriminate E].
  - intros k z. cbn [sfind]. destruct (String.eqb "level" k); intros E; discriminate E.
Qed.

Lemma level_copts f comp l : existsb (String.eqb comp) (py_compressors f) = true -> comp <> "blosc"%string -> comp <> "raw"%string ->
  exists copts op, py_copts f comp [("level"%string, JInt l)] = Ok copts /\ json_options copts [] = Ok op.
Proof.
  intros E B R. apply existsb_string_In in E. destruct f; cbn [py_compressors In] in E;
    repeat match type of E with _ \/ _ => destruct E as [E|E] end; try contradiction; subst comp; try congruence;
    do 2 eexists; split; reflexivity.
Qed.

(** What python does before calling the library accepts the settings. *)
Theorem settings_accepted f o : k_zarr (op_keys o) = zarr_of f -> reported_well f (op_codec o) ->
  exists opts copts op, py_compression_opts o = Ok opts /\ In (py_compression o) (py_compressors f) /\
    py_copts f (py_compression o) opts = Ok copts /\ json_options copts [] = Ok op.
Proof.
  intros Z W. unfold py_compression_opts, py_compression. rewrite Z.
  assert (X : forall comp l, existsb (String.eqb comp) (py_compressors f) = true -> comp <> "blosc"%string -> comp <> "raw"%string ->
    exists opts copts op, Ok [("level"%string, JInt l)] = Ok opts /\ In comp (py_compressors f) /\
      py_copts f comp opts = Ok copts /\ json_options copts [] = Ok op).
  { intros comp l A B C. destruct (@level_copts f comp l A B C) as [copts [op [E1 E2]]].
    exists [("level"%string, JInt l)], copts, op. split; [reflexivity|]. split; [now apply existsb_string_In|]. now split. }
  destruct f, (op_codec o); cbn [reported_well] in W; try contradiction; cbn -[py_copts py_compressors json_options]; apply X;
    (reflexivity || discriminate).
Qed.

(** A dataset created with the settings of another one has the same codec. *)
Theorem settings_passed_back g key a s s' d z o opts : key <> [] -> Forall usable key ->
  fs_ok s -> s (h_path (pg_handle g)) = Some NDir -> uniform s (h_path (pg_handle g)) z key ->
  k_zarr (op_keys o) = z -> codec_ints (op_codec o) -> reported_well (format_of z (pg_format g)) (op_codec o) ->
  py_compression_opts o = Ok opts ->
  py_create_dataset g (name_of key) (with_settings a (py_compression o) opts) s = (s', Ok d) ->
  op_codec (pd_impl d) = op_codec o.
Proof.
  intros N U F D UN K CI W PO R. assert (A := create_dataset_asked N U F D UN R).
  assert (C := pa_codec A). cbn [a_comp a_opts with_settings] in C.
  rewrite <- (zarr_of_format z (pg_format g)) in K. set (f := format_of z (pg_format g)) in *.
  unfold py_compression_opts in PO. unfold py_compression in C. rewrite K in C.
  destruct f, (op_codec o) as [|l1 l2 cn bs nt|l u|l|l|l|l]; cbn [reported_well] in W; try contradiction; cbn in PO; inversion PO; subst opts;
    cbn [codec_ints] in CI; cbn [zarr_of compressor_to_zarr compressor_to_n5 codec_type] in C;
    specialize (C (level_plain CI) ltac:(discriminate) ltac:(discriminate)); unfold wanted_codec in C;
    destruct (op_codec (pd_impl d)); try discriminate C; try (destruct C as [C _]; discriminate C); try (destruct C as [[[C _]|[C _]] _]; discriminate C);
    destruct C as [C1 C2]; cbn in C2; subst; try reflexivity; destruct C1 as [[C1 C3]|[C1 C3]]; congruence.
Qed.

(** gzip of a zarr v2 dataset is reported as zlib: the copy has another header. *)
Theorem gzip_passed_back g key a s s' d o opts l : key <> [] -> Forall usable key ->
  fs_ok s -> s (h_path (pg_handle g)) = Some NDir -> uniform s (h_path (pg_handle g)) true key ->
  pg_format g <> 3%Z -> k_zarr (op_keys o) = true -> is_int l -> op_codec o = Cfg_zlib l false ->
  py_compression_opts o = Ok opts ->
  py_create_dataset g (name_of key) (with_settings a (py_compression o) opts) s = (s', Ok d) ->
  op_codec (pd_impl d) = Cfg_zlib l true.
Proof.
  intros N U F D UN FM K CI OC PO R. assert (A := create_dataset_asked N U F D UN R).
  assert (C := pa_codec A). cbn [a_comp a_opts with_settings] in C.
  unfold format_of in C. destruct (Z.eqb_spec (pg_format g) 3) as [|_]; [congruence|].
  unfold py_compression_opts in PO. unfold py_compression in C. rewrite K, OC in C. rewrite OC in PO. cbn in PO. inversion PO; subst opts.
  specialize (C (level_plain CI) ltac:(discriminate) ltac:(discriminate)). unfold wanted_codec in C.
  destruct (op_codec (pd_impl d)); try discriminate C; try (destruct C as [C _]; discriminate C).
  destruct C as [C1 C2]. cbn in C2. subst. destruct C1 as [[C1 C3]|[C1 C3]]; [congruence|discriminate C1].
Qed.

(** * The others *)

Lemma create_in_unavailable g name a s f : (forall z, is_zarr_group s (h_path (pg_handle g)) = Ok z -> format_of z (pg_format g) = f) ->
  (forall c, a_comp a = Some c -> ~ In c (py_compressors f) \/ is_ok (py_copts f c (a_opts a)) = false) -> a_comp a <> None ->
  exists r, py_create_in g name a s = (s, r) /\ is_ok r = false.
Proof.
  intros FZ H NC. unfold py_create_in. unfold fbind at 1, fret at 1.
  destruct (shape_and_dtype a) as [[sh ty]| |]; [|eexists; split; reflexivity|eexists; split; reflexivity]. unfold fbind at 1, fret at 1.
  destruct (chunks_for sh (a_chunks a)); [|eexists; split; reflexivity|eexists; split; reflexivity]. unfold fbind at 1, freading at 1.
  destruct (is_zarr_group s (h_path (pg_handle g))) as [z| |]; [|eexists; split; reflexivity|eexists; split; reflexivity].
  rewrite (FZ z eq_refl). unfold fbind at 1, fret at 1.
  destruct (existsb _ py_dtypes); [|eexists; split; reflexivity]. unfold fbind at 1, fret at 1.
  destruct (match a_shards a, f with None, _ | _, FZarr3 => Ok tt | Some _, _ => Throw EInvalidArgument end);
    [|eexists; split; reflexivity|eexists; split; reflexivity]. unfold fbind at 1, fret at 1.
  destruct (a_comp a) as [c|]; [|congruence].
  destruct (existsb (String.eqb c) (py_compressors f)) eqn:E; [|eexists; split; reflexivity].
  apply existsb_string_In in E. destruct (H c eq_refl) as [X|X]; [tauto|].
  unfold fbind at 1, fret at 1. destruct (py_copts f c (a_opts a)); [discriminate X|eexists; split; reflexivity|eexists; split; reflexivity].
Qed.

(** The settings of every other codec that python can ask for are not reported, or
    not accepted: for all their values. *)
Theorem settings_rejected f o : k_zarr (op_keys o) = zarr_of f ->
  ~ reported_well f (op_codec o) ->
  (forall l header, op_codec o = Cfg_zlib l header -> f = FZarr3) ->
  is_ok (py_compression_opts o) = false \/
  exists opts, py_compression_opts o = Ok opts /\
    forall g name a s, (forall z, is_zarr_group s (h_path (pg_handle g)) = Ok z -> format_of z (pg_format g) = f) ->
      exists r, py_create_in g name (with_settings a (py_compression o) opts) s = (s, r) /\ is_ok r = false.
Proof.
  intros Z W ZL. unfold py_compression_opts, py_compression. rewrite Z.
  assert (X : forall comp opts, existsb (String.eqb comp) (py_compressors f) = false \/ is_ok (py_copts f comp opts) = false ->
    exists opts', Ok opts = Ok opts' /\
    forall g name a s, (forall z, is_zarr_group s (h_path (pg_handle g)) = Ok z -> format_of z (pg_format g) = f) ->
      exists r, py_create_in g name (with_settings a comp opts') s = (s, r) /\ is_ok r = false).
  { intros comp opts H. exists opts. split; [reflexivity|]. intros g name a s FZ.
    apply (@create_in_unavailable g name _ s f FZ); [|cbn; discriminate]. intros c E. cbn in E. inversion E; subst c.
    destruct H as [H|H]; [left|now right]. intros I. assert (Y : existsb (String.eqb comp) (py_compressors f) = true); [|congruence].
    apply existsb_exists. exists comp. split; [exact I|apply String.eqb_refl]. }
  destruct f, (op_codec o) as [|l1 l2 cn bs nt|l u|l|l|l|l]; cbn [reported_well] in W; try tauto;
    try (discriminate (ZL l u eq_refl)); cbn -[py_create_in py_copts py_compressors];
    try (left; reflexivity); right; apply X; (left; reflexivity) || (right; reflexivity).
Qed.

(** Settings that are given are reported. *)
Lemma wanted_int_same opts k dflt z v : wanted_int opts k dflt z -> sfind k opts = Some v -> same_setting v (JInt z).
Proof. unfold wanted_int. intros W E. rewrite E in W. now destruct v. Qed.
Lemma wanted_str_same opts k dflt z v : wanted_str opts k dflt z -> sfind k opts = Some v -> same_setting v (JStr z).
Proof. unfold wanted_str. intros W E. rewrite E in W. now destruct v. Qed.

Theorem settings_reported g key a s s' d z : key <> [] -> Forall usable key ->
  fs_ok s -> s (h_path (pg_handle g)) = Some NDir -> uniform s (h_path (pg_handle g)) z key ->
  py_create_dataset g (name_of key) a s = (s', Ok d) ->
  let f := format_of z (pg_format g) in
  let comp := match a_comp a with Some c => c | None => py_default_compressor f end in
  plain_options (a_opts a) ->
  (comp = "blosc"%string -> f = FZarr3 \/ sfind (level_key f) (a_opts a) = None) ->
  (f = FZarr2 -> comp <> "gzip"%string) -> comp <> "raw"%string ->
  exists l, py_compression_opts (pd_impl d) = Ok l /\
    forall k v, sfind k (a_opts a) = Some v -> exists w, sfind k l = Some w /\ same_setting v w.
Proof.
  intros N U F D UN R f comp PO BL GZ RW. assert (A := create_dataset_asked N U F D UN R).
  assert (W := pa_codec A PO BL GZ).
  destruct (create_dataset_inner N U F D UN R) as [g1 [s1 [x [R1 [Px [F1 [Z1 [FE _]]]]]]]].
  destruct (create_in_inv (key := [x]) ltac:(discriminate) (Forall_cons _ Px (Forall_nil _)) R1)
    as [sh [ty [ch [z' [comp' [copts [op [delim [enc [shard Q]]]]]]]]]].
  assert (Z2 := mi_zarr Q). rewrite Z1 in Z2. inversion Z2; subst z'. clear Z2.
  assert (CO := mi_copts Q). assert (AV := mi_avail Q). assert (CM := mi_comp Q). rewrite FE in CO, AV, CM.
  change (comp' = comp) in CM. subst comp'. change (py_copts f comp (a_opts a) = Ok copts) in CO. change (In comp (py_compressors f)) in AV.
  change (wanted_codec f comp (a_opts a) (op_codec (pd_impl d))) in W.
  assert (X : forall dd, py_default_opts f comp = Some dd -> forall k v, sfind k (a_opts a) = Some v -> In k (map fst dd)).
  { intros dd E k v S. destruct (@copts_find _ _ _ _ _ E CO k) as [_ Y]. destruct (sfind k dd) as [w|] eqn:G.
    - apply sfind_in in G. now apply (in_map fst) in G.
    - rewrite (Y eq_refl) in S. discriminate S. }
  unfold py_compression_opts. destruct PO as (_ & _ & NZ & NI). clearbody f comp. clear - X W BL GZ RW AV NZ NI.
  destruct f; cbn [py_compressors In] in AV; repeat match type of AV with _ \/ _ => destruct AV as [AV|AV] end; try contradiction; subst comp; try congruence;
    try (now elim (GZ eq_refl)); specialize (X _ eq_refl);
    destruct (op_codec (pd_impl d)); cbn [wanted_codec] in W;
    try discriminate W; try (destruct W as [W _]; discriminate W); try (destruct W as [[[W _]|[W _]] _]; discriminate W);
    (eexists; split; [reflexivity|]; intros k v S; specialize (X k v S); cbn [map fst In] in X;
     repeat match type of X with _ \/ _ => destruct X as [X|X] end; try contradiction; subst k; try congruence;
     try (destruct (BL eq_refl) as [B|B]; [discriminate B|cbn in B; congruence]);
     cbn [sfind map filter fst snd String.eqb]; eexists; (split; [reflexivity|]);
     repeat match type of W with _ /\ _ => destruct W as [? W] end;
     first [eapply wanted_int_same; eassumption|eapply wanted_str_same; eassumption]).
Qed.

(** Types that are not in the table. *)
Lemma create_in_types g name a s :
  (forall ty, (a_dtype a = Some ty /\ a_data a = None) \/ (exists sh, a_data a = Some (sh, ty)) -> ~ In ty py_dtypes) ->
  is_ok (snd (py_create_in g name a s)) = false.
Proof.
  intros H. unfold py_create_in. unfold fbind at 1, fret at 1.
  destruct (shape_and_dtype a) as [[sh ty]| |] eqn:ST; [|reflexivity|reflexivity]. unfold fbind at 1, fret at 1.
  destruct (chunks_for sh (a_chunks a)); [|reflexivity|reflexivity]. unfold fbind at 1, freading at 1.
  destruct (is_zarr_group s (h_path (pg_handle g))) as [z| |]; [|reflexivity|reflexivity]. unfold fbind at 1, fret at 1.
  destruct (existsb (String.eqb ty) py_dtypes) eqn:E; [|reflexivity].
  exfalso. apply existsb_string_In in E. apply (H ty); [|exact E]. unfold shape_and_dtype in ST.
  destruct (a_data a) as [[dsh dty]|].
  - right. exists dsh. destruct (match a_shape a with None => _ | Some _ => _ end); cbn [bind] in ST; try discriminate ST.
    destruct (a_dtype a) as [t|]; cbn [bind] in ST; [|congruence].
    destruct (String.eqb t dty); cbn [bind] in ST; [congruence|discriminate ST].
  - left. destruct (a_shape a), (a_dtype a); try discriminate ST. injection ST as _ ->. auto.
Qed.
Theorem create_dataset_types g name a s :
  (forall ty, (a_dtype a = Some ty /\ a_data a = None) \/ (exists sh, a_data a = Some (sh, ty)) -> ~ In ty py_dtypes) ->
  is_ok (snd (py_create_dataset g name a s)) = false.
Proof.
  intros H. unfold py_create_dataset. unfold fbind at 1. destruct (py_may_create g name s) as [s1 [u|e|]]; [|reflexivity|reflexivity].
  destruct (removelast _) as [|x front]; [now apply create_in_types|].
  unfold fbind at 1. destruct (py_require_groups g (x :: front) s1) as [s2 [g'|e|]]; [|reflexivity|reflexivity].
  unfold fbind at 1. destruct (py_may_create g' _ s2) as [s3 [u'|e|]]; [|reflexivity|reflexivity]. now apply create_in_types.
Qed.
