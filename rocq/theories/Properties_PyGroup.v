(** Properties of the python containers. *)
From Coq Require Import ZArith Ascii String.
From Verif Require Import M_Base M_Double M_Json M_Mode M_Key S_Text M_Blocking M_Metadata S_Metadata M_Fs M_Attributes S_Attributes
  P_Attributes M_Container S_Container P_Container P_Container2 P_Container3 Properties_Attributes Properties_Container
  M_PyGroup S_PyGroup P_PyGroup P_PyGroup2 P_PyGroup3 P_PyGroup4 P_PyGroup5 P_PyGroup6 P_PyGroup7 P_PyGroup8 P_PyGroup9
  P_PyGroup10 P_PyGroup11.
Import ListNotations.
Local Open Scope list_scope.
Local Open Scope N_scope.

(** For the examples: the File object of [ex_fs], and arguments. *)
Definition ex_pg (fmt : Z) : pygroup := PyGroup (Handle ["f"%string] Mode_a) "" "." fmt.
Definition ex_args (sh : shape) (ch : option shape) (comp : option string) (opts : list (string * json)) : ds_args :=
  DsArgs (Some sh) (Some "uint8"%string) None ch comp (DZero false) None "default" opts.
Definition ex_n (f : py_format) : Z := dataset_format f.
Definition ex_file (f : py_format) : fsys := ex_fs (zarr_of f) (ex_n f).

Lemma ex_usable : Forall usable ["a"; "b"]%string.
Proof. repeat match goal with |- Forall _ _ => constructor end; vm_compute; intuition discriminate. Qed.
Lemma ex_uniform f : uniform (ex_file f) ["f"%string] (zarr_of f) ["a"; "b"]%string.
Proof.
  split; [destruct f; vm_compute; reflexivity|]. intros k1 k2 E.
  destruct k1 as [|x [|y [|w k1]]]; cbn in E; inversion E; subst.
  - right. destruct f; vm_compute; reflexivity.
  - left. destruct f; vm_compute; reflexivity.
  - left. destruct f; vm_compute; reflexivity.
Qed.

(** * C73: names *)

(** A dataset made with a name of any number of plain components ("a/b/c") is what
    the name yields afterwards, all groups on the way are found, nothing else
    changes.  (Missing: codecs and fill values that the format cannot record,
    see C51; names that are not plain, see below.) *)
Theorem C73_create_dataset_partial g key a s s' d z : key <> [] -> Forall usable key ->
  fs_ok s -> s (h_path (pg_handle g)) = Some NDir -> uniform s (h_path (pg_handle g)) z key ->
  dbl_ok (a_fill a) ->
  py_create_dataset g (name_of key) a s = (s', Ok d) ->
  recordable_codec z (dataset_format (format_of z (pg_format g))) (op_codec (pd_impl d)) ->
  recordable_fill z (op_dtype (pd_impl d)) (op_fill (pd_impl d)) ->
  made s s' g key d.
Proof. exact (@create_dataset_made g key a s s' d z). Qed.
Print Assumptions C73_create_dataset_partial.

Example C73_create_dataset_case f :
  uniform (ex_file f) ["f"%string] (zarr_of f) ["a"; "b"]%string /\
  exists s' d, py_create_dataset (ex_pg (ex_n f)) (name_of ["a"; "b"]%string) (ex_args [100; 20] None None []) (ex_file f) = (s', Ok d) /\
    recordable_codec (zarr_of f) (dataset_format (format_of (zarr_of f) (ex_n f))) (op_codec (pd_impl d)) /\
    recordable_fill (zarr_of f) (op_dtype (pd_impl d)) (op_fill (pd_impl d)) /\
    op_path (pd_impl d) = ["f"; "a"; "b"]%string.
Proof. split; [apply ex_uniform|]. apply after_ok. destruct f; vm_compute; intuition (discriminate || reflexivity || lia). Qed.

(** The same for groups; an existing node makes create_group fail. *)
Theorem C73_create_group g key s s' g' : key <> [] -> Forall usable key ->
  fs_ok s -> s (h_path (pg_handle g)) = Some NDir ->
  py_create_group g (name_of key) s = (s', Ok g') ->
  group_found s s' g key g' /\ s (h_path (pg_handle g) ++ key) = None.
Proof. exact (@create_group_found g key s s' g'). Qed.
Print Assumptions C73_create_group.

(** require_group returns what is there or makes it; a second call finds the same
    and changes nothing. *)
Theorem C73_require_group g key s s' g' : key <> [] -> Forall usable key ->
  fs_ok s -> s (h_path (pg_handle g)) = Some NDir ->
  py_require_group g (name_of key) s = (s', Ok g') ->
  group_found s s' g key g' /\
  (py_contains s g (name_of key) = true -> s' = s /\ py_getitem s g (name_of key) = Ok (PGroup g')) /\
  py_require_group g (name_of key) s' = (s', Ok g').
Proof.
  intros N U F D R. destruct (@require_group_found g key s s' g' N U F D R) as [A B].
  split; [exact A|]. split; [exact B|]. exact (@require_group_twice g key s s' g' N U F D R).
Qed.
Print Assumptions C73_require_group.

Example C73_group_case f :
  (exists s' g', py_create_group (ex_pg (ex_n f)) (name_of ["a"; "b"]%string) (ex_file f) = (s', Ok g') /\ pg_name g' = "/a/b"%string) /\
  (exists s' g', py_require_group (ex_pg (ex_n f)) (name_of ["a"; "b"]%string) (ex_file f) = (s', Ok g') /\ pg_name g' = "/a/b"%string) /\
  (exists s' g', py_require_group (ex_pg (ex_n f)) (name_of ["g"]%string) (ex_file f) = (s', Ok g') /\ pg_name g' = "/g"%string) /\
  snd (py_create_group (ex_pg (ex_n f)) (name_of ["g"]%string) (ex_file f)) = Throw ELogic /\
  snd (py_require_group (ex_pg (ex_n f)) (name_of ["g"; "d"]%string) (ex_file f)) = Throw ELogic.
Proof.
  split; [apply after_ok; destruct f; vm_compute; reflexivity|].
  split; [apply after_ok; destruct f; vm_compute; reflexivity|].
  split; [apply after_ok; destruct f; vm_compute; reflexivity|]. split; destruct f; vm_compute; reflexivity.
Qed.

(** del removes the node and everything below, nothing else; the name is gone; it
    works for everything that can be looked up, and a failed call changes
    nothing. *)
Theorem C73_delete g key s s' : key <> [] -> Forall proper key ->
  py_delitem g (name_of key) s = (s', Ok tt) ->
  (forall q, s' q = if below (h_path (pg_handle g) ++ key) q then None else s q) /\
  py_contains s' g (name_of key) = false.
Proof.
  intros N P R. split; [exact (proj2 (@delitem_removes g key s s' N P R))|exact (@delitem_gone g key s s' N P R)].
Qed.
Print Assumptions C73_delete.
Theorem C73_delete_succeeds g key s x : key <> [] -> Forall proper key ->
  can_write (h_mode (pg_handle g)) = true -> py_getitem s g (name_of key) = Ok x ->
  snd (py_delitem g (name_of key) s) = Ok tt.
Proof. exact (@delitem_succeeds g key s x). Qed.
Print Assumptions C73_delete_succeeds.
Theorem C73_delete_fails g name s s' r : py_delitem g name s = (s', r) -> r <> Ok tt -> s' = s.
Proof. exact (@delitem_fails g name s s' r). Qed.
Print Assumptions C73_delete_fails.

Example C73_delete_case f :
  (exists x, py_getitem (ex_file f) (ex_pg (ex_n f)) (name_of ["g"; "d"]%string) = Ok x) /\
  (exists x, py_getitem (ex_file f) (ex_pg (ex_n f)) (name_of ["g"]%string) = Ok x) /\
  (exists s', py_delitem (ex_pg (ex_n f)) (name_of ["g"; "d"]%string) (ex_file f) = (s', Ok tt) /\
              s' ["f"; "g"; "d"]%string = None /\ s' ["f"; "g"]%string = Some NDir) /\
  snd (py_delitem (ex_pg (ex_n f)) (name_of ["x"]%string) (ex_file f)) = Throw ELogic.
Proof.
  split; [destruct f; eexists; vm_compute; reflexivity|]. split; [destruct f; eexists; vm_compute; reflexivity|].
  split; [apply after_unit; destruct f; vm_compute; repeat split|]. destruct f; vm_compute; reflexivity.
Qed.

(** [in], [[]] and [del] ignore leading "/". *)
Theorem C73_slashes s g n name :
  py_contains s g (slashes n ++ name) = py_contains s g name /\
  same_result (py_getitem s g (slashes n ++ name)) (py_getitem s g name) /\
  py_delitem g (slashes n ++ name) s = py_delitem g name s.
Proof.
  split; [exact (contains_slashes s g n name)|]. split; [exact (getitem_slashes s g n name)|exact (delitem_slashes s g n name)].
Qed.
Print Assumptions C73_slashes.
Example C73_slashes_case :
  (slashes 2 ++ "g/d" = "//g/d")%string /\
  py_contains (ex_fs true 2) (ex_pg 2) "//g/d" = true /\ py_contains (ex_fs true 2) (ex_pg 2) "//x" = false.
Proof. vm_compute. repeat split; reflexivity. Qed.

(** But the calls that make nodes do not: create_group and require_group with a
    leading "/" make a group outside the container, which is not found under the
    name; *)
Theorem C73_create_group_absolute g n key s s' g' : key <> [] -> Forall proper key -> fs_ok s ->
  below (h_path (pg_handle g)) key = false ->
  py_create_group g (slashes (S n) ++ name_of key) s = (s', Ok g') ->
  escaped s s' g (slashes (S n) ++ name_of key) key g'.
Proof. exact (@create_group_absolute g n key s s' g'). Qed.
Print Assumptions C73_create_group_absolute.
Theorem C73_require_group_absolute g n key s s' g' : key <> [] -> Forall proper key -> fs_ok s ->
  below (h_path (pg_handle g)) key = false -> py_contains s g (name_of key) = false ->
  py_require_group g (slashes (S n) ++ name_of key) s = (s', Ok g') ->
  escaped s s' g (slashes (S n) ++ name_of key) key g'.
Proof. exact (@require_group_absolute g n key s s' g'). Qed.
Print Assumptions C73_require_group_absolute.

(** so the statement for all names is false: for create_group, require_group,
    create_dataset and require_dataset with "/x"; ".." leaves the container as
    well. *)
Theorem C73_absolute_refuted :
  let g := ex_pg 2 in
  let s := ex_fs true 2 in
  let a := ex_args [10; 20] None None [] in
  (exists s' g', py_create_group g "/x" s = (s', Ok g') /\
     s' ["x"]%string = Some NDir /\ s' ["f"; "x"]%string = None /\ py_contains s' g "/x" = false) /\
  (exists s' g', py_require_group g "/x" s = (s', Ok g') /\
     s' ["x"]%string = Some NDir /\ s' ["f"; "x"]%string = None /\ py_contains s' g "/x" = false) /\
  (exists s' d, py_create_dataset g "/x" a s = (s', Ok d) /\
     op_path (pd_impl d) = ["x"]%string /\ s' ["f"; "x"]%string = None /\ py_contains s' g "/x" = false) /\
  (exists s' d, py_require_dataset g "/x" [10; 20] a s = (s', Ok d) /\
     op_path (pd_impl d) = ["x"]%string /\ s' ["f"; "x"]%string = None /\ py_contains s' g "/x" = false) /\
  (exists s' g', py_create_group g "../x" s = (s', Ok g') /\ s' ["x"]%string = Some NDir /\ s' ["f"; "x"]%string = None).
Proof. repeat match goal with |- _ /\ _ => split | |- let _ := _ in _ => intro end; apply after_ok; vm_compute; repeat split; reflexivity. Qed.
Print Assumptions C73_absolute_refuted.

(** * C80: the arguments of create_dataset *)

(** The new dataset has the shape, type, chunks (or the default chunks), fill
    value, shards and chunk names that were asked for, or those of the data. *)
Theorem C80_create_dataset_asked g key a s s' d z : key <> [] -> Forall usable key ->
  fs_ok s -> s (h_path (pg_handle g)) = Some NDir -> uniform s (h_path (pg_handle g)) z key ->
  py_create_dataset g (name_of key) a s = (s', Ok d) ->
  py_asked g z a (pd_impl d).
Proof. exact (@create_dataset_asked g key a s s' d z). Qed.
Print Assumptions C80_create_dataset_asked.
Example C80_case f :
  (exists s' d, py_create_dataset (ex_pg (ex_n f)) (name_of ["a"; "b"]%string) (ex_args [100; 20; 600] None None []) (ex_file f) = (s', Ok d) /\
     op_chunks (pd_impl d) = [64; 20; 64] /\ op_shape (pd_impl d) = [100; 20; 600]) /\
  (exists s' d, py_create_dataset (ex_pg (ex_n f)) (name_of ["a"; "b"]%string)
                  (DsArgs None None (Some ([70; 90], "float32"%string)) (Some [100; 10]) None (DZero false) None "default" []) (ex_file f) = (s', Ok d) /\
     op_chunks (pd_impl d) = [70; 10] /\ op_shape (pd_impl d) = [70; 90] /\ op_dtype (pd_impl d) = DT_float32).
Proof. split; apply after_ok; destruct f; vm_compute; repeat split; reflexivity. Qed.

(** All other types are refused. *)
Theorem C80_other_types g name a s : 
  (forall ty, (a_dtype a = Some ty /\ a_data a = None) \/ (exists sh, a_data a = Some (sh, ty)) ->
     ~ In ty ["uint8"; "uint16"; "uint32"; "uint64"; "int8"; "int16"; "int32"; "int64"; "float32"; "float64"]%string) ->
  is_ok (snd (py_create_dataset g name a s)) = false.
Proof. exact (@create_dataset_types g name a s). Qed.
Print Assumptions C80_other_types.
Example C80_types_case f t : In t [DT_uint8; DT_uint16; DT_uint32; DT_uint64; DT_int8; DT_int16; DT_int32; DT_int64; DT_float32; DT_float64] ->
  exists s' d, py_create_dataset (ex_pg (ex_n f)) (name_of ["a"; "b"]%string)
    (DsArgs (Some [10; 20]) (Some (dtype_name_of t)) None None None (DZero false) None "default" []) (ex_file f) = (s', Ok d) /\
    op_dtype (pd_impl d) = t.
Proof.
  intros H. apply after_ok. repeat (destruct H as [<- |H]); try destruct H; destruct f; vm_compute; reflexivity.
Qed.

(** Shapes with a zero are not: the metadata is written, and then the number of
    chunks is computed by an integer division by zero. *)
Theorem C80_zero_extent_refuted f :
  let (s', r) := py_create_dataset (ex_pg (ex_n f)) (name_of ["a"; "b"]%string) (ex_args [0; 20] None None []) (ex_file f) in
  r = UB /\ fs_isdir s' ["f"; "a"; "b"]%string = true /\
  is_ok (read_dataset_metadata s' ["f"; "a"; "b"]%string) = true.
Proof.
  destruct (py_create_dataset _ _ _ _) as [s' r] eqn:E.
  assert (E1 := f_equal snd E). assert (E2 := f_equal fst E). cbn [fst snd] in E1, E2. subst s' r.
  clear E. destruct f; vm_compute; repeat split; reflexivity.
Qed.
Print Assumptions C80_zero_extent_refuted.

(** * C74: compression settings *)

(** The codec of a new dataset is the one that the documented compression options
    ask for.  (Missing: the level of blosc in n5 and zarr v2, and gzip in zarr v2,
    for which it is false, see below.) *)
Theorem C74_codec_partial g key a s s' d z : key <> [] -> Forall usable key ->
  fs_ok s -> s (h_path (pg_handle g)) = Some NDir -> uniform s (h_path (pg_handle g)) z key ->
  py_create_dataset g (name_of key) a s = (s', Ok d) ->
  let f := format_of z (pg_format g) in
  let comp := match a_comp a with Some c => c | None => py_default_compressor f end in
  plain_options (a_opts a) ->
  (comp = "blosc"%string -> f = FZarr3 \/ sfind (level_key f) (a_opts a) = None) ->
  (f = FZarr2 -> comp <> "gzip"%string) ->
  wanted_codec f comp (a_opts a) (op_codec (pd_impl d)).
Proof. intros N U F D UN R. exact (pa_codec (@create_dataset_asked g key a s s' d z N U F D UN R)). Qed.
Print Assumptions C74_codec_partial.
Example C74_case :
  (exists s' d, py_create_dataset (ex_pg 3) (name_of ["a"; "b"]%string)
     (ex_args [10; 20] None (Some "blosc"%string) [("level", JInt 9); ("codec", JStr "zstd")]%string) (ex_fs true 3) = (s', Ok d) /\
     op_codec (pd_impl d) = Cfg_blosc 9 1 "zstd" 0 1) /\
  (exists s' d, py_create_dataset (ex_pg 2) (name_of ["a"; "b"]%string)
     (ex_args [10; 20] None (Some "zlib"%string) [("level", JInt 9)]%string) (ex_fs true 2) = (s', Ok d) /\
     op_codec (pd_impl d) = Cfg_zlib 9 true) /\
  (exists s' d, py_create_dataset (ex_pg 2) (name_of ["a"; "b"]%string)
     (ex_args [10; 20] None (Some "gzip"%string) []) (ex_fs false 2) = (s', Ok d) /\
     op_codec (pd_impl d) = Cfg_zlib 5 false).
Proof. repeat match goal with |- _ /\ _ => split end; apply after_ok; vm_compute; reflexivity. Qed.

(** blosc with clevel=9 compresses with level 5 in n5 and zarr v2, and gzip in zarr
    v2 is zlib. *)
Theorem C74_codec_refuted :
  (exists s' d, py_create_dataset (ex_pg 2) "x" (ex_args [10; 20] None (Some "blosc"%string) [("clevel", JInt 9)]%string) (ex_fs true 2) = (s', Ok d) /\
     op_codec (pd_impl d) = Cfg_blosc 5 1 "lz4" 0 1) /\
  (exists s' d, py_create_dataset (ex_pg 2) "x" (ex_args [10; 20] None (Some "blosc"%string) [("clevel", JInt 9)]%string) (ex_fs false 2) = (s', Ok d) /\
     op_codec (pd_impl d) = Cfg_blosc 5 1 "lz4" 0 1) /\
  (exists s' d, py_create_dataset (ex_pg 2) "x" (ex_args [10; 20] None (Some "gzip"%string) []) (ex_fs true 2) = (s', Ok d) /\
     op_codec (pd_impl d) = Cfg_zlib 5 true).
Proof. repeat match goal with |- _ /\ _ => split end; apply after_ok; vm_compute; reflexivity. Qed.
Print Assumptions C74_codec_refuted.

(** * C75: passing the settings of a dataset on *)

(** Reported settings are accepted by create_dataset of the same format, and the
    copy has the codec of the original.  (Missing: the codecs that are not
    [reported_well], see below.) *)
Theorem C75_accepted_partial f o : k_zarr (op_keys o) = zarr_of f -> reported_well f (op_codec o) ->
  exists opts copts op, py_compression_opts o = Ok opts /\ In (py_compression o) (py_compressors f) /\
    py_copts f (py_compression o) opts = Ok copts /\ json_options copts [] = Ok op.
Proof. exact (@settings_accepted f o). Qed.
Print Assumptions C75_accepted_partial.
Theorem C75_same_codec_partial g key a s s' d z o opts : key <> [] -> Forall usable key ->
  fs_ok s -> s (h_path (pg_handle g)) = Some NDir -> uniform s (h_path (pg_handle g)) z key ->
  k_zarr (op_keys o) = z -> codec_ints (op_codec o) -> reported_well (format_of z (pg_format g)) (op_codec o) ->
  py_compression_opts o = Ok opts ->
  py_create_dataset g (name_of key) (with_settings a (py_compression o) opts) s = (s', Ok d) ->
  op_codec (pd_impl d) = op_codec o.
Proof. exact (@settings_passed_back g key a s s' d z o opts). Qed.
Print Assumptions C75_same_codec_partial.

(** The settings given to create_dataset are reported by compression_opts. *)
Theorem C75_reported g key a s s' d z : key <> [] -> Forall usable key ->
  fs_ok s -> s (h_path (pg_handle g)) = Some NDir -> uniform s (h_path (pg_handle g)) z key ->
  py_create_dataset g (name_of key) a s = (s', Ok d) ->
  let f := format_of z (pg_format g) in
  let comp := match a_comp a with Some c => c | None => py_default_compressor f end in
  plain_options (a_opts a) ->
  (comp = "blosc"%string -> f = FZarr3 \/ sfind (level_key f) (a_opts a) = None) ->
  (f = FZarr2 -> comp <> "gzip"%string) -> comp <> "raw"%string ->
  exists l, py_compression_opts (pd_impl d) = Ok l /\
    forall k v, sfind k (a_opts a) = Some v -> exists w, sfind k l = Some w /\ same_setting v w.
Proof. exact (@settings_reported g key a s s' d z). Qed.
Print Assumptions C75_reported.
Example C75_reported_case :
  exists s' d, py_create_dataset (ex_pg 3) (name_of ["a"; "b"]%string)
     (ex_args [10; 20] None (Some "blosc"%string) [("level", JInt 9); ("shuffle", JUInt 2)]%string) (ex_fs true 3) = (s', Ok d) /\
     py_compression_opts (pd_impl d) = Ok [("codec", JStr "lz4"); ("shuffle", JInt 2); ("level", JInt 9); ("blocksize", JInt 0); ("nthreads", JInt 1)]%string.
Proof. apply after_ok. vm_compute. reflexivity. Qed.

Definition ex_opened (f : py_format) (c : codec_config) : opened :=
  Opened ["f"; "o"]%string Mode_a (KeyConfig (zarr_of f) "." (if match f with FZarr3 => true | _ => false end then 3 else 2) "default") DT_uint8 [10; 20] [5; 5] (FInt 0) c [].
Example C75_case f (H := match f with FN5 | FZarr3 => Cfg_zstd 7 | _ => Cfg_zlib 9 true end) :
  let o := ex_opened f H in
  codec_ints (op_codec o) /\ reported_well f (op_codec o) /\
  exists opts, py_compression_opts o = Ok opts /\
  exists s' d, py_create_dataset (ex_pg (ex_n f)) (name_of ["a"; "b"]%string)
    (with_settings (ex_args [10; 20] None None []) (py_compression o) opts) (ex_file f) = (s', Ok d) /\
    op_codec (pd_impl d) = H.
Proof.
  split; [destruct f; vm_compute; intuition discriminate|]. split; [destruct f; now vm_compute|].
  destruct f; (eexists; split; [vm_compute; reflexivity|]); apply after_ok; vm_compute; reflexivity.
Qed.

(** For every other codec the settings are not reported, or create_dataset refuses
    them, *)
Theorem C75_rejected f o : k_zarr (op_keys o) = zarr_of f ->
  ~ reported_well f (op_codec o) ->
  (forall l header, op_codec o = Cfg_zlib l header -> f = FZarr3) ->
  is_ok (py_compression_opts o) = false \/
  exists opts, py_compression_opts o = Ok opts /\
    forall g name a s, (forall z, is_zarr_group s (h_path (pg_handle g)) = Ok z -> format_of z (pg_format g) = f) ->
      exists r, py_create_in g name (with_settings a (py_compression o) opts) s = (s, r) /\ is_ok r = false.
Proof. exact (@settings_rejected f o). Qed.
Print Assumptions C75_rejected.
(** or (gzip in zarr v2) the copy has another codec. *)
Theorem C75_gzip g key a s s' d o opts l : key <> [] -> Forall usable key ->
  fs_ok s -> s (h_path (pg_handle g)) = Some NDir -> uniform s (h_path (pg_handle g)) true key ->
  pg_format g <> 3%Z -> k_zarr (op_keys o) = true -> is_int l -> op_codec o = Cfg_zlib l false ->
  py_compression_opts o = Ok opts ->
  py_create_dataset g (name_of key) (with_settings a (py_compression o) opts) s = (s', Ok d) ->
  op_codec (pd_impl d) = Cfg_zlib l true.
Proof. exact (@gzip_passed_back g key a s s' d o opts l). Qed.
Print Assumptions C75_gzip.
Theorem C75_refuted :
  let o := ex_opened FZarr2 (Cfg_blosc 5 1 "lz4" 0 1) in
  let q := ex_opened FZarr2 (Cfg_zlib 5 false) in
  is_ok (py_compression_opts (ex_opened FN5 Cfg_raw)) = false /\
  (exists opts, py_compression_opts o = Ok opts /\
     snd (py_create_dataset (ex_pg 2) "x" (with_settings (ex_args [10; 20] None None []) (py_compression o) opts) (ex_fs true 2)) = Throw ERuntime) /\
  (exists opts, py_compression_opts q = Ok opts /\
     exists s' d, py_create_dataset (ex_pg 2) "x" (with_settings (ex_args [10; 20] None None []) (py_compression q) opts) (ex_fs true 2) = (s', Ok d) /\
       op_codec (pd_impl d) = Cfg_zlib 5 true).
Proof.
  intros o q. split; [vm_compute; reflexivity|]. split; eexists; (split; [vm_compute; reflexivity|]).
  - vm_compute; reflexivity.
  - apply after_ok. vm_compute. reflexivity.
Qed.
Print Assumptions C75_refuted.

(** * C76: require_dataset *)

(** An existing dataset is returned exactly when it has the shape and (if given)
    the chunks and the type; nothing is changed, whatever the result. *)
Theorem C76_existing g key sh a s d : key <> [] -> Forall proper key ->
  fs_isdir s (h_path (pg_handle g) ++ key) = true ->
  fst (py_require_dataset g (name_of key) sh a s) = s /\
  (py_require_dataset g (name_of key) sh a s = (s, Ok d) <->
   py_getitem s g (name_of key) = Ok (PDataset d) /\ op_shape (pd_impl d) = sh /\
   (forall c, a_chunks a = Some c -> op_chunks (pd_impl d) = c) /\
   (forall t, a_dtype a = Some t -> dtype_name_of (op_dtype (pd_impl d)) = t)).
Proof.
  intros N P E. split; [exact (@require_existing g key sh a N P s E)|exact (@require_returns g key sh a N P s d E)].
Qed.
Print Assumptions C76_existing.
Example C76_existing_case f :
  fs_isdir (ex_file f) ["f"; "g"; "d"]%string = true /\
  (exists d, py_getitem (ex_file f) (ex_pg (ex_n f)) (name_of ["g"; "d"]%string) = Ok (PDataset d) /\
     op_shape (pd_impl d) = [5; 4] /\ op_chunks (pd_impl d) = [2; 3] /\ dtype_name_of (op_dtype (pd_impl d)) = "uint8"%string) /\
  is_ok (snd (py_require_dataset (ex_pg (ex_n f)) (name_of ["g"; "d"]%string) [5; 4] (ex_args [5; 4] (Some [2; 3]) None []) (ex_file f))) = true /\
  is_ok (snd (py_require_dataset (ex_pg (ex_n f)) (name_of ["g"; "d"]%string) [5; 5] (ex_args [5; 4] (Some [2; 3]) None []) (ex_file f))) = false /\
  is_ok (snd (py_require_dataset (ex_pg (ex_n f)) (name_of ["g"; "d"]%string) [5; 4] (ex_args [5; 4] (Some [2; 2]) None []) (ex_file f))) = false.
Proof.
  split; [destruct f; vm_compute; reflexivity|]. split; [destruct f; eexists; (split; [vm_compute; reflexivity|]); repeat split|].
  destruct f; vm_compute; repeat split; reflexivity.
Qed.

(** A new dataset is the one that create_dataset makes under this name, *)
Theorem C76_new g key sh a s : key <> [] -> Forall proper key ->
  fs_isdir s (h_path (pg_handle g) ++ key) = false ->
  py_require_dataset g (name_of key) sh a s =
  if can_write (h_mode (pg_handle g)) then py_create_in g (name_of key) (with_shape sh a) s else (s, Throw EInvalidArgument).
Proof.
  intros N P E. rewrite (@require_cases g key sh a N P s), E. reflexivity.
Qed.
Print Assumptions C76_new.
(** which is found afterwards. *)
Theorem C76_found_partial g key sh a s s' d z : key <> [] -> Forall usable key -> fs_ok s ->
  s (h_path (pg_handle g)) = Some NDir -> is_zarr_group s (h_path (pg_handle g)) = Ok z ->
  dbl_ok (a_fill a) -> fs_isdir s (h_path (pg_handle g) ++ key) = false ->
  py_require_dataset g (name_of key) sh a s = (s', Ok d) ->
  recordable_codec z (dataset_format (format_of z (pg_format g))) (op_codec (pd_impl d)) ->
  recordable_fill z (op_dtype (pd_impl d)) (op_fill (pd_impl d)) ->
  found s s' g key d.
Proof.
  intros N U F D Z DF E R RC RF. rewrite (@require_cases g key sh a N (usable_proper U) s), E in R.
  destruct can_write; [|discriminate R].
  exact (@create_in_found g key (with_shape sh a) s s' d z N U F D Z DF R RC RF).
Qed.
Print Assumptions C76_found_partial.

(** The same call once more returns the same dataset and changes nothing.
    (Missing: chunks larger than the shape, for which it is false, see below;
    codecs and fill values that the format cannot record, see C51.) *)
Theorem C76_twice_partial g key sh a s s' d z : key <> [] -> Forall usable key ->
  fs_ok s -> s (h_path (pg_handle g)) = Some NDir -> is_zarr_group s (h_path (pg_handle g)) = Ok z ->
  dbl_ok (a_fill a) -> (forall c, a_chunks a = Some c -> Forall2 N.le c sh) ->
  py_require_dataset g (name_of key) sh a s = (s', Ok d) ->
  recordable_codec z (dataset_format (format_of z (pg_format g))) (op_codec (pd_impl d)) ->
  recordable_fill z (op_dtype (pd_impl d)) (op_fill (pd_impl d)) ->
  exists d', py_require_dataset g (name_of key) sh a s' = (s', Ok d') /\ same_object (pd_impl d) (pd_impl d').
Proof. exact (@require_twice g key sh a s s' d z). Qed.
Print Assumptions C76_twice_partial.
Example C76_twice_case f :
  exists s' d, py_require_dataset (ex_pg (ex_n f)) (name_of ["x"]%string) [10; 20] (ex_args [1] (Some [10; 5]) None []) (ex_file f) = (s', Ok d) /\
    recordable_codec (zarr_of f) (dataset_format (format_of (zarr_of f) (ex_n f))) (op_codec (pd_impl d)) /\
    recordable_fill (zarr_of f) (op_dtype (pd_impl d)) (op_fill (pd_impl d)) /\ op_shape (pd_impl d) = [10; 20].
Proof. apply after_ok. destruct f; vm_compute; intuition (discriminate || reflexivity || lia). Qed.

(** With a chunk extent larger than the shape the second call always raises. *)
Theorem C76_twice_fails g key sh a s s' d z c : key <> [] -> Forall usable key ->
  fs_ok s -> s (h_path (pg_handle g)) = Some NDir -> is_zarr_group s (h_path (pg_handle g)) = Ok z ->
  dbl_ok (a_fill a) -> a_chunks a = Some c -> ~ Forall2 N.le c sh ->
  fs_isdir s (h_path (pg_handle g) ++ key) = false ->
  py_require_dataset g (name_of key) sh a s = (s', Ok d) ->
  recordable_codec z (dataset_format (format_of z (pg_format g))) (op_codec (pd_impl d)) ->
  recordable_fill z (op_dtype (pd_impl d)) (op_fill (pd_impl d)) ->
  py_require_dataset g (name_of key) sh a s' = (s', Throw ELogic).
Proof. exact (@require_twice_fails g key sh a s s' d z c). Qed.
Print Assumptions C76_twice_fails.
Theorem C76_twice_refuted f :
  let a := ex_args [1] (Some [64; 64]) None [] in
  exists s' d, py_require_dataset (ex_pg (ex_n f)) "x" [10; 20] a (ex_file f) = (s', Ok d) /\
    snd (py_require_dataset (ex_pg (ex_n f)) "x" [10; 20] a s') = Throw ELogic.
Proof. intros a. apply after_ok. destruct f; vm_compute; reflexivity. Qed.
Print Assumptions C76_twice_refuted.

(** * C77: visititems *)

(** There is a list of all members (exactly the objects [g[k1]...[kn]], each name
    once) such that, for every function, visititems calls it for the members of
    this list in this order until it returns something. *)
Theorem C77_visititems s ls g d : listing s ls -> all_readable s ls g ->
  (forall k g', member s g k (PGroup g') -> (List.length k < d)%nat) -> (0 < d)%nat ->
  exists L,
    (forall B (func : list (string * pyobj) -> string -> pyobj -> option B),
       py_visititems ls func d s (h_path (pg_handle g)) g [] = Ok (walk func [] L)) /\
    (forall n x, In (n, x) L <-> exists k, member s g k x /\ n = name_of k) /\
    NoDup (map fst L).
Proof. exact (@visititems_visits s ls g d). Qed.
Print Assumptions C77_visititems.

Definition ex_dirs : list path := [[]; ["f"]; ["f"; "g"]; ["f"; "g"; "d"]]%string.
Definition ex_tree : fsys := fun p =>
  if existsb (path_eqb p) ex_dirs then Some NDir
  else if path_eqb p ["f"; "attributes.json"]%string then Some (NDoc (JObj [("n5", JStr "2.0.0")]%string))
  else if path_eqb p ["f"; "g"; "d"; "attributes.json"]%string then
    match ex_fs false 2 ["f"; "g"; "d"; "attributes.json"]%string with Some (NDoc j) => Some (NDoc j) | _ => None end
  else None.
Definition ex_ls (p : path) : list string :=
  (if path_eqb p [] then ["f"] else if path_eqb p ["f"] then ["g"] else if path_eqb p ["f"; "g"] then ["d"] else [])%string.

Lemma ex_listing : listing ex_tree ex_ls.
Proof.
  assert (I : forall p a, fs_isdir ex_tree (p ++ [a]) = true <->
    (p = [] /\ a = "f" \/ p = ["f"] /\ a = "g" \/ p = ["f"; "g"] /\ a = "d")%string).
  { intros p a. split.
    - unfold fs_isdir, ex_tree. destruct (existsb (path_eqb (p ++ [a])) ex_dirs) eqn:E.
      + intros _. apply existsb_exists in E. destruct E as [q [Q E]].
        assert (X := proj1 (path_eqb_eq _ _) E). clear E.
        cbn in Q. destruct Q as [Q|[Q|[Q|[Q|[]]]]]; subst q.
        * now destruct p.
        * left. exact (app_inj_tail _ [] _ _ X).
        * right. left. exact (app_inj_tail _ ["f"%string] _ _ X).
        * right. right. exact (app_inj_tail _ ["f"; "g"]%string _ _ X).
      + repeat match goal with |- context [if ?c then _ else _] => destruct c end; try discriminate.
    - intros [[-> ->]|[[-> ->]|[-> ->]]]; vm_compute; reflexivity. }
  assert (L : forall p a, In a (ex_ls p) <-> (p = [] /\ a = "f" \/ p = ["f"] /\ a = "g" \/ p = ["f"; "g"] /\ a = "d")%string).
  { intros p a. unfold ex_ls.
    destruct (list_eq_dec String.string_dec p []) as [->|N1]; [cbn; intuition congruence|]. rewrite (path_eqb_ne N1).
    destruct (list_eq_dec String.string_dec p ["f"%string]) as [->|N2]; [cbn; intuition congruence|]. rewrite (path_eqb_ne N2).
    destruct (list_eq_dec String.string_dec p ["f"; "g"]%string) as [->|N3]; [cbn; intuition congruence|]. rewrite (path_eqb_ne N3).
    cbn. intuition. }
  split.
  - intros p. split.
    + unfold ex_ls. destruct (path_eqb p []), (path_eqb p ["f"%string]), (path_eqb p ["f"; "g"]%string); repeat constructor; cbn; tauto.
    + intros a. now rewrite I, L.
  - intros p a H. apply L in H. destruct H as [[_ ->]|[[_ ->]|[_ ->]]]; repeat split; discriminate.
Qed.

Lemma ex_members : exists o, forall k x, member ex_tree (ex_pg 2) k x ->
  (k = ["g"]%string /\ x = PGroup (PyGroup (Handle ["f"; "g"]%string Mode_a) "/g" "." 2)) \/
  (k = ["g"; "d"]%string /\ x = PDataset o).
Proof.
  destruct (py_getitem ex_tree (PyGroup (Handle ["f"; "g"]%string Mode_a) "/g" "." 2) "d") as [[|o]| |] eqn:E;
    try (vm_compute in E; discriminate E).
  exists o.
  assert (D1 : forall a x, proper a -> py_getitem ex_tree (ex_pg 2) a = Ok x ->
    a = "g"%string /\ x = PGroup (PyGroup (Handle ["f"; "g"]%string Mode_a) "/g" "." 2)).
  { intros a x P I. change a with (name_of [a]) in I.
    rewrite (@getitem_plain ex_tree (ex_pg 2) [a] ltac:(discriminate) (Forall_cons _ P (Forall_nil _))) in I.
    destruct (fs_isdir ex_tree (h_path (pg_handle (ex_pg 2)) ++ [a])) eqn:DA; [|discriminate I].
    assert (A : In a (ex_ls ["f"%string])) by (apply (proj2 (proj1 ex_listing ["f"%string])); exact DA).
    destruct A as [<-|[]]. split; [reflexivity|]. vm_compute in I. now inversion I. }
  assert (D2 : forall a x, proper a -> py_getitem ex_tree (PyGroup (Handle ["f"; "g"]%string Mode_a) "/g" "." 2) a = Ok x ->
    a = "d"%string).
  { intros a x P I. change a with (name_of [a]) in I.
    rewrite (@getitem_plain ex_tree (PyGroup (Handle ["f"; "g"]%string Mode_a) "/g" "." 2) [a] ltac:(discriminate) (Forall_cons _ P (Forall_nil _))) in I.
    destruct (fs_isdir ex_tree _) eqn:DA; [|discriminate I].
    assert (A : In a (ex_ls ["f"; "g"]%string)) by (apply (proj2 (proj1 ex_listing ["f"; "g"]%string)); exact DA).
    destruct A as [<-|[]]. reflexivity. }
  intros k x M. inversion M as [g a y P I|g a g' r y P I M']; subst.
  - left. destruct (D1 _ _ P I) as [-> ->]. now split.
  - right. destruct (D1 _ _ P I) as [-> H]. inversion H; subst g'. clear H M.
    inversion M' as [g a y P' I'|g a g' r' y P' I' M'']; subst.
    + assert (X := D2 _ _ P' I'). subst a. split; [reflexivity|]. congruence.
    + assert (X := D2 _ _ P' I'). subst a. exfalso. congruence.
Qed.

Example C77_case :
  listing ex_tree ex_ls /\ all_readable ex_tree ex_ls (ex_pg 2) /\
  (forall k g', member ex_tree (ex_pg 2) k (PGroup g') -> (List.length k < 2)%nat) /\
  match py_visititems ex_ls (fun _ _ _ => @None unit) 2 ex_tree ["f"%string] (ex_pg 2) [] with
  | Ok (calls, None) => map fst calls = ["g"; "g/d"]%string
  | _ => False
  end.
Proof.
  destruct ex_members as [o M]. split; [exact ex_listing|]. split; [|split].
  - intros g' [->|[k H]] a I.
    + cbn in I. destruct I as [<-|[]]. vm_compute. reflexivity.
    + destruct (M _ _ H) as [[_ E]|[_ E]]; [|discriminate E]. inversion E; subst g'. cbn in I. destruct I as [<-|[]]. vm_compute. reflexivity.
  - intros k g' H. destruct (M _ _ H) as [[-> E]|[_ E]]; [cbn; repeat constructor|discriminate E].
  - vm_compute. reflexivity.
Qed.

(** * C78: attributes *)

(** Any history of reads, [in], assignments, updates, deletions and pops through
    [attrs] behaves like a dict in which some names are protected.  (Missing: the
    deletion of a name that is not there, which raises no KeyError, see below.) *)
Theorem C78_dict_partial k m p v z ops s t l : let am := AttrManager k m p in
  can_write m = true -> attr_node k s p v z -> py_attrs s am = Ok l -> (forall a, jlookup a l = t a) ->
  Forall dict_op_ok ops -> dels_present (protected k z) ops t ->
  fst (py_dict_run am ops s) = fst (dict_run (protected k z) ops t) /\
  exists l', py_attrs (snd (py_dict_run am ops s)) am = Ok l' /\
    forall a, jlookup a l' = snd (dict_run (protected k z) ops t) a.
Proof.
  intros am W A R T O D.
  destruct (@dict_history k m p v z ops s t W A (ex_intro _ l (conj R T)) O D) as [H1 [H2 _]]. split; [exact H1|exact H2].
Qed.
Print Assumptions C78_dict_partial.
(** Iterating yields exactly the names that are in it. *)
Theorem C78_keys s a l k : py_attr_keys s a = Ok l -> (In k l <-> py_attr_in s a k = Ok true).
Proof. exact (@keys_are_names s a l k). Qed.
Print Assumptions C78_keys.

Definition ex_dict : list dict_op :=
  [DSet "a" (JInt 1); DUpdate [("b", JStr "x"); ("c", JNull)]; DIn "b"; DIn "z"; DGet "a"; DGet "z"; DPop "b"; DDel "a"; DGet "a";
   DSet "dimensions" (JInt 2); DPop "b"]%string.
Example C78_case : let am := AttrManager HDataset Mode_a ["f"; "g"; "d"]%string in
  attr_node HDataset (ex_fs false 2) ["f"; "g"; "d"]%string false false /\
  py_attrs (ex_fs false 2) am = Ok [] /\
  Forall dict_op_ok ex_dict /\ dels_present (protected HDataset false) ex_dict (fun _ => None) /\
  fst (py_dict_run am ex_dict (ex_fs false 2)) =
    [Some None; Some None; Some (Some (JBool true)); Some (Some (JBool false)); Some (Some (JUInt 1)); None;
     Some (Some (JStr "x")); Some None; None; None; None].
Proof.
  intros am. split; [split; try (vm_compute; reflexivity); vm_compute; repeat split; try discriminate; tauto|].
  split; [vm_compute; reflexivity|]. split.
  - repeat constructor; cbn; intuition discriminate.
  - split; [|vm_compute; reflexivity]. cbn. intuition discriminate.
Qed.

(** del of a missing name raises nothing. *)
Theorem C78_del_missing k m p v z s l a : let am := AttrManager k m p in
  can_write m = true -> attr_node k s p v z -> py_attrs s am = Ok l -> jlookup a l = None ->
  existsb (String.eqb a) (protected k z) = false -> is_ok (snd (py_attr_del am a s)) = true.
Proof.
  intros am W A R N P.
  exact (@del_missing k m p v z s (fun a => jlookup a l) a W A (ex_intro _ l (conj R (fun a => eq_refl))) N P).
Qed.
Print Assumptions C78_del_missing.
Theorem C78_dict_refuted : let am := AttrManager HGroup Mode_a ["f"; "g"]%string in
  py_attrs (ex_fs true 2) am = Ok [] /\
  fst (py_dict_run am [DDel "a"%string] (ex_fs true 2)) = [Some None] /\
  fst (dict_run (protected HGroup true) [DDel "a"%string] (fun _ => None)) = [None].
Proof. intros am. vm_compute. repeat split; reflexivity. Qed.
Print Assumptions C78_dict_refuted.

(** * C79: pickling *)

(** A File that can be opened again and reports the format of the object is
    unpickled as it was; *)
Theorem C79_file s f fmt z : pg_name f = ""%string ->
  check_version s (h_path (pg_handle f)) fmt = Ok (pg_format f) ->
  is_zarr_group s (h_path (pg_handle f)) = Ok z -> z = true \/ pg_format f = 2%Z ->
  py_unpickle_file s f = Ok f.
Proof. exact (@unpickle_file s f fmt z). Qed.
Print Assumptions C79_file.

(** so is every group and dataset that was looked up step by step, however deep; *)
Theorem C79_member s f k x : pg_name f = ""%string -> py_unpickle_file s f = Ok f -> member s f k x ->
  py_unpickle s f x = Ok x.
Proof. exact (@unpickle_member s f k x). Qed.
Print Assumptions C79_member.

(** every one that was looked up with a path, if there are groups on the way; *)
Theorem C79_path s f k x z : pg_name f = ""%string -> py_unpickle_file s f = Ok f ->
  k <> [] -> Forall proper k -> is_zarr_group s (h_path (pg_handle f)) = Ok z ->
  (forall k1 k2, k = k1 ++ k2 -> k1 <> [] -> k2 <> [] ->
     is_zarr_group s (h_path (pg_handle f) ++ k1) = Ok z /\
     exists g, py_getitem s f (name_of k1) = Ok (PGroup g)) ->
  py_getitem s f (name_of k) = Ok x -> py_unpickle s f x = Ok x.
Proof. exact (@unpickle_found s f k x z). Qed.
Print Assumptions C79_path.

(** also with additional slashes around the path (its name then loses them); *)
Theorem C79_slashes s f k n m x z : pg_name f = ""%string -> py_unpickle_file s f = Ok f ->
  k <> [] -> Forall proper k -> is_zarr_group s (h_path (pg_handle f)) = Ok z ->
  (forall k1 k2, k = k1 ++ k2 -> k1 <> [] -> k2 <> [] ->
     is_zarr_group s (h_path (pg_handle f) ++ k1) = Ok z /\
     exists g, py_getitem s f (name_of k1) = Ok (PGroup g)) ->
  py_getitem s f (slashes n ++ name_of k ++ slashes m) = Ok x ->
  exists y, py_unpickle s f x = Ok y /\ same_obj x y.
Proof. exact (@unpickle_slashes s f k n m x z). Qed.
Print Assumptions C79_slashes.

(** and every dataset that was just made with create_dataset. *)
Theorem C79_created g key a s s' d z : pg_name g = ""%string -> key <> [] -> Forall usable key ->
  fs_ok s -> s (h_path (pg_handle g)) = Some NDir -> uniform s (h_path (pg_handle g)) z key ->
  dbl_ok (a_fill a) ->
  py_create_dataset g (name_of key) a s = (s', Ok d) ->
  recordable_codec z (dataset_format (format_of z (pg_format g))) (op_codec (pd_impl d)) ->
  recordable_fill z (op_dtype (pd_impl d)) (op_fill (pd_impl d)) ->
  py_unpickle_file s' g = Ok g ->
  exists d', py_unpickle s' g (PDataset d) = Ok (PDataset d') /\ same_object (pd_impl d) (pd_impl d') /\ pd_name d' = pd_name d.
Proof. exact (@unpickle_created g key a s s' d z). Qed.
Print Assumptions C79_created.

Example C79_case f :
  check_version (ex_file f) ["f"%string] 2 = Ok (ex_n f) /\
  py_unpickle_file (ex_file f) (ex_pg (ex_n f)) = Ok (ex_pg (ex_n f)) /\
  (exists x, member (ex_file f) (ex_pg (ex_n f)) ["g"; "d"]%string x /\ obj_name x = "/g/d"%string) /\
  (exists x, py_getitem (ex_file f) (ex_pg (ex_n f)) (name_of ["g"; "d"]%string) = Ok x) /\
  (exists x, py_getitem (ex_file f) (ex_pg (ex_n f)) "//g/" = Ok x /\ obj_name x = "///g/"%string) /\
  (exists s' d, py_create_dataset (ex_pg (ex_n f)) (name_of ["a"; "b"]%string) (ex_args [100; 20] None None []) (ex_file f) = (s', Ok d) /\
     py_unpickle_file s' (ex_pg (ex_n f)) = Ok (ex_pg (ex_n f))).
Proof.
  split; [destruct f; vm_compute; reflexivity|]. split; [destruct f; vm_compute; reflexivity|]. split; [|split].
  - destruct f; eexists; (split; [eapply member_below; [| |eapply member_child]; [repeat split; discriminate|vm_compute; reflexivity|repeat split; discriminate|vm_compute; reflexivity]|reflexivity]).
  - destruct f; eexists; vm_compute; reflexivity.
  - split; [destruct f; (eexists; split; [vm_compute; reflexivity|reflexivity])|]. apply after_ok. destruct f; vm_compute; reflexivity.
Qed.

(** But the group that create_group('a/b') returns in a zarr container cannot be
    unpickled. *)
Theorem C79_group_refuted :
  exists s' g, py_create_group (ex_pg 2) "a/b" (ex_fs true 2) = (s', Ok g) /\
    is_ok (py_getitem s' (ex_pg 2) "a/b") = true /\
    py_unpickle s' (ex_pg 2) (PGroup g) = Throw ERuntime.
Proof. apply after_ok. vm_compute. split; reflexivity. Qed.
Print Assumptions C79_group_refuted.
