(** Properties of containers: files, groups and datasets. *)
From Coq Require Import ZArith String.
From Verif Require Import M_Base M_Double M_Json M_Mode M_Key M_Dataset M_Sharded M_Metadata S_Metadata M_Fs M_Attributes
  S_Attributes P_Attributes M_Container S_Container P_Container P_SameObject P_Container2 P_Container3
  Properties_Attributes.
Import ListNotations.
Local Open Scope list_scope.
Local Open Scope N_scope.

Lemma ex_root_ok : fs_ok ex_root.
Proof. split; [reflexivity|]. intros p a. destruct p; cbn; congruence. Qed.
Lemma ex_fs_ok z fmt : fs_ok (ex_fs z fmt).
Proof.
  apply ccalls_tree; [exact ex_root_ok|]. repeat constructor; discriminate.
Qed.

(** For the examples: the outcome without computing the file system as a whole. *)
Lemma after_ok A (x : fsys * outcome A) (P : fsys -> A -> Prop) :
  match snd x with Ok a => P (fst x) a | _ => False end -> exists s' a, x = (s', Ok a) /\ P s' a.
Proof. destruct x as [s' [a|e|]]; cbn; [eauto|easy|easy]. Qed.
Lemma after_unit (x : fsys * outcome unit) (P : fsys -> Prop) :
  match snd x with Ok _ => P (fst x) | _ => False end -> exists s', x = (s', Ok tt) /\ P s'.
Proof. destruct x as [s' [[]|e|]]; cbn; [eauto|easy|easy]. Qed.
Lemma after_throw A (x : fsys * outcome A) (P : fsys -> Prop) :
  match snd x with Throw _ => P (fst x) | _ => False end -> exists s' e, x = (s', Throw e) /\ P s'.
Proof. destruct x as [s' [a|e|]]; cbn; [easy|eauto|easy]. Qed.

(** C28, containers: no history of attribute writes and removals, removals of
    nodes, creations of files, groups and datasets through read-only handles
    changes anything, and every call fails; *)
Theorem C28_readonly_container cs s :
  snd (run_ccalls Mode_r cs s) = s /\ Forall (fun o => is_ok o = false) (fst (run_ccalls Mode_r cs s)).
Proof. exact (readonly_ccalls cs s). Qed.
Print Assumptions C28_readonly_container.

(** nor does opening a File with mode 'r', whatever the other arguments. *)
Theorem C28_readonly_open p ext use_zarr fmt s :
  fst (py_open_file (Handle p Mode_r) ext use_zarr fmt s) = s.
Proof. exact (open_file_readonly p ext use_zarr fmt s). Qed.
Print Assumptions C28_readonly_open.

Example C28_container_case :
  length (fst (run_ccalls Mode_r (ex_calls true 3) (ex_fs false 2))) = 3%nat /\
  fst (run_ccalls Mode_r [CRemove ["f"; "g"]; CWriteAttr HGroup ["f"; "g"] (JObj [("a", JInt 1)])]%string (ex_fs false 2))
    = [Throw EInvalidArgument; Throw EInvalidArgument].
Proof. split; vm_compute; reflexivity. Qed.

(** C50.  The permissions of the modes; *)
Theorem C50_permissions m :
  (can_write m = false <-> m = Mode_r) /\
  (can_create m = true <-> m = Mode_w \/ m = Mode_w_m \/ m = Mode_a) /\
  (should_truncate m = true <-> m = Mode_w) /\
  (must_not_exist m = true <-> m = Mode_w_m).
Proof. exact (mode_facts m). Qed.
Print Assumptions C50_permissions.

(** opening a File: for each mode and existence state, what happens to the storage
    and what the call answers (a requested format that contradicts the one found
    is refused in [C50_contradiction]); *)
Theorem C50_open h ext use_zarr fmt s :
  fs_ok s -> consistent (infer_format s (h_path h) ext) use_zarr -> way_free s (h_path h) ->
  let p := h_path h in
  let z := infer_format s p ext in
  let (s', r) := py_open_file h ext use_zarr fmt s in
  match open_rule (h_mode h) (fs_exists s p) with
  | OpenIt => s' = s /\ r = check_version s p fmt
  | RejectIt => s' = s /\ r = Throw EFilesystem
  | MakeIt | ReplaceIt =>
      r = Ok fmt /\ fresh_container s s' p (fst (new_doc z fmt)) (snd (new_doc z fmt))
  end.
Proof. exact (@open_file_rule h ext use_zarr fmt s). Qed.
Print Assumptions C50_open.

Theorem C50_contradiction h ext use_zarr fmt s :
  ~ consistent (infer_format s (h_path h) ext) use_zarr ->
  py_open_file h ext use_zarr fmt s = (s, Throw ERuntime).
Proof. exact (@open_file_inconsistent h ext use_zarr fmt s). Qed.
Print Assumptions C50_contradiction.

(** and a container made that way is recognised: any later opening for reading or
    appending accepts it and finds the format it was made with. *)
Theorem C50_reopen s s' p z fmt fmt' ext :
  fresh_container s s' p (fst (new_doc z fmt)) (snd (new_doc z fmt)) ->
  (z = true -> fmt = 2%Z \/ fmt = 3%Z) ->
  check_version s' p fmt' = Ok (if z then fmt else fmt') /\
  ((forall u, ext = Some u -> u = z) -> infer_format s' p ext = z).
Proof. intros F Z. split; [now apply (@fresh_version s s' p z fmt fmt')|now apply (@fresh_infer s s' p z fmt ext)]. Qed.
Print Assumptions C50_reopen.

Example C50_case :
  fs_ok (ex_fs true 3) /\ consistent (infer_format (ex_fs true 3) ["f"%string] None) (Some true) /\
  way_free (ex_fs true 3) ["f"%string] /\
  open_rule Mode_a (fs_exists (ex_fs true 3) ["f"%string]) = OpenIt /\
  snd (py_open_file (Handle ["f"%string] Mode_a) None (Some true) 2 (ex_fs true 3)) = Ok 3%Z /\
  snd (py_open_file (Handle ["f"%string] Mode_w_m) None (Some true) 2 (ex_fs true 3)) = Throw EFilesystem /\
  open_rule Mode_w (fs_exists (ex_fs true 3) ["f"%string]) = ReplaceIt /\
  fst (py_open_file (Handle ["f"%string] Mode_w) None (Some true) 2 (ex_fs true 3)) ["f"; "g"]%string = None /\
  ex_fs true 3 ["f"; "g"]%string = Some NDir.
Proof.
  split; [apply ex_fs_ok|]. split; [right; vm_compute; reflexivity|]. split.
  - intros q B N. destruct q as [|a [|b q]]; [right; vm_compute; reflexivity| |].
    + cbn [below] in B. destruct (String.eqb_spec a "f") as [X|]; [|discriminate]. destruct N. now rewrite X.
    + cbn [below] in B. now rewrite andb_false_r in B.
  - vm_compute. repeat split; reflexivity.
Qed.

(** Findings about opening.  Asking for zarr at a new path without the extension
    .zarr is refused in every mode that creates; *)
Theorem C50_new_zarr_refuted :
  Forall (fun m => snd (py_open_file (Handle ["data"%string] m) None (Some true) 2 ex_root) = Throw ERuntime)
         [Mode_a; Mode_w; Mode_w_m].
Proof. repeat constructor. Qed.
Print Assumptions C50_new_zarr_refuted.

(** the n5 version check (major version at most 4) reads one character, so that
    version 10.0.0 passes; *)
Theorem C50_version_refuted :
  let s := fun p => if path_eqb p ["f"; "attributes.json"]%string then Some (NDoc (JObj [("n5", JStr "10.0.0")]%string))
                    else if below p ["f"%string] then Some NDir else None in
  snd (py_open_file (Handle ["f"%string] Mode_a) None None 2 s) = Ok 2%Z /\
  snd (py_open_file (Handle ["f"%string] Mode_a) None None 2
         (fun p => if path_eqb p ["f"; "attributes.json"]%string then Some (NDoc (JObj [("n5", JStr "5.0.0")]%string)) else s p))
    = Throw ERuntime.
Proof. split; vm_compute; reflexivity. Qed.
Print Assumptions C50_version_refuted.

(** C51.  A dataset made by create_dataset is opened as the same object, if the
    format can record its codec and fill value.  (Missing: the other cases, see
    the refuted statements below.) *)
Theorem C51_create_open_partial root key dn sh ch cn op fill delim fmt enc shard s s' o z :
  fs_ok s -> key_free key -> options_ok op -> dbl_ok fill ->
  is_zarr_group s (h_path root) = Ok z -> (z = true -> fmt = 2%Z \/ fmt = 3%Z) ->
  create_dataset root key dn sh ch cn op fill delim fmt enc shard s = (s', Ok o) ->
  recordable_codec z fmt (op_codec o) -> recordable_fill z (op_dtype o) (op_fill o) ->
  exists o', open_dataset s' root key = Ok o' /\ same_object o o'.
Proof. exact (@create_reopens root key dn sh ch cn op fill delim fmt enc shard s s' o z). Qed.
Print Assumptions C51_create_open_partial.

(** And it is the dataset that was asked for: element type, extents, chunk and
    shard shape, fill value, names of the chunks, codec with its options. *)
Theorem C51_as_asked root key dn sh ch cn op fill delim fmt enc shard s s' o z :
  fs_ok s -> is_zarr_group s (h_path root) = Ok z ->
  create_dataset root key dn sh ch cn op fill delim fmt enc shard s = (s', Ok o) ->
  as_asked root key z dn sh ch cn op fill delim fmt enc shard o.
Proof. exact (@created_as_asked root key dn sh ch cn op fill delim fmt enc shard s s' o z). Qed.
Print Assumptions C51_as_asked.

(** createDataset with a metadata object made for the format of the container does the
    same as createDataset with the arguments the metadata was made of. *)
Theorem C51_from_metadata root key dn sh ch cn op fill delim fmt enc shard s z m :
  is_zarr_group s (h_path root) = Ok z ->
  create_metadata dn sh ch z cn op fill delim fmt enc shard = Ok m ->
  create_dataset_md root key m s = create_dataset root key dn sh ch cn op fill delim fmt enc shard s.
Proof. exact (@create_md_same root key dn sh ch cn op fill delim fmt enc shard s z m). Qed.
Print Assumptions C51_from_metadata.
(** Same object means: every chunk and sub-array call has the same result and
    effect, whatever the codecs do, plain and sharded. *)
Theorem C51_same_calls t f c o o' : same_object o o' ->
  (forall x y, same_codec x y -> c x = c y) ->
  same_calls (dataset_of t f c o) (dataset_of t f c o').
Proof. exact (@same_object_calls t f c o o'). Qed.
Print Assumptions C51_same_calls.

Theorem C51_same_shard_calls t f c o o' : same_object o o' ->
  (forall x y, same_codec x y -> c x = c y) -> k_zarr (op_keys o) = true ->
  match open_sharded (dataset_of t f c o) (op_shard o), open_sharded (dataset_of t f c o') (op_shard o') with
  | Ok sd, Ok sd' => same_shard_calls sd sd'
  | Throw e, Throw e' => e = e'
  | UB, UB => True
  | _, _ => False
  end.
Proof. exact (@same_object_shard_calls t f c o o'). Qed.
Print Assumptions C51_same_shard_calls.

(** A sharded zarr v3 dataset with its own separator, a zarr v2 one with a nested
    layout, and an n5 one. *)
Definition ex_root_h : handle := Handle ["f"%string] Mode_a.
Example C51_case :
  fs_ok (ex_fs true 3) /\ key_free ["x"; "y"]%string /\
  is_zarr_group (ex_fs true 3) ["f"%string] = Ok true /\
  (exists s' o, create_dataset ex_root_h ["x"; "y"]%string "int16" [8; 6] [2; 3] "gzip" [("useZlib"%string, OBool false)]
     (DFin true 3 0) "." 3 "v2" [4; 6] (ex_fs true 3) = (s', Ok o) /\
     recordable_codec true 3 (op_codec o) /\ op_shard o = [4; 6] /\ op_fill o = FInt (-3) /\
     exists o', open_dataset s' ex_root_h ["x"; "y"]%string = Ok o' /\ op_fill o' = FInt (-3)) /\
  is_zarr_group (ex_fs true 2) ["f"%string] = Ok true /\
  (exists s' o, create_dataset ex_root_h ["x"; "y"]%string "float32" [8; 6] [2; 3] "raw" []
     DNan "/" 2 "default" [] (ex_fs true 2) = (s', Ok o) /\ recordable_codec true 2 (op_codec o)) /\
  is_zarr_group (ex_fs false 2) ["f"%string] = Ok false /\
  (exists s' o, create_dataset ex_root_h ["x"; "y"]%string "uint64" [8; 6] [2; 3] "raw" []
     (DZero false) "." 2 "default" [] (ex_fs false 2) = (s', Ok o) /\
     recordable_codec false 2 (op_codec o) /\ recordable_fill false (op_dtype o) (op_fill o)).
Proof.
  split; [apply ex_fs_ok|]. split; [split; discriminate|].
  split; [vm_compute; reflexivity|]. split.
  { apply after_ok. vm_compute. split; [right; reflexivity|].
    split; [reflexivity|]. split; [reflexivity|]. eexists. split; reflexivity. }
  split; [vm_compute; reflexivity|]. split.
  { apply after_ok. vm_compute. exact Logic.I. }
  split; [vm_compute; reflexivity|].
  apply after_ok. vm_compute. split; [exact Logic.I|]. right. reflexivity.
Qed.

Example C51_from_metadata_case : exists m,
  create_metadata "float32" [100; 80] [10; 10] true "raw" [] (DZero false) "/" 3 "default" [20; 20] = Ok m /\
  is_zarr_group (ex_fs true 3) (h_path ex_root_h) = Ok true /\
  is_ok (snd (create_dataset_md ex_root_h ["x"%string] m (ex_fs true 3))) = true.
Proof. eexists. split; [vm_compute; reflexivity|]. split; vm_compute; reflexivity. Qed.

(** Findings.  n5: the fill value is lost; *)
Theorem C51_n5_fill_refuted :
  exists s' o, create_dataset ex_root_h ["x"%string] "uint8" [8] [2] "raw" [] (DFin false 7 0) "." 2 "default" []
    (ex_fs false 2) = (s', Ok o) /\
    exists o', open_dataset s' ex_root_h ["x"%string] = Ok o' /\ op_fill o = FInt 7 /\ op_fill o' = FInt 0.
Proof. apply after_ok. vm_compute. eexists. repeat split; reflexivity. Qed.
Print Assumptions C51_n5_fill_refuted.

(** createDataset with a metadata object does not compare its format with that of
    the container: zarr v3 metadata in an n5 container is accepted, and opening
    looks for other chunk keys; *)
Theorem C51_foreign_metadata_refuted :
  exists m, create_metadata "uint8" [8] [2] true "raw" [] (DZero false) "/" 3 "default" [] = Ok m /\
    exists s' o, create_dataset_md ex_root_h ["x"%string] m (ex_fs false 2) = (s', Ok o) /\
    exists o', open_dataset s' ex_root_h ["x"%string] = Ok o' /\
    chunk_key (op_keys o) [3] <> chunk_key (op_keys o') [3].
Proof.
  eexists. split; [vm_compute; reflexivity|]. apply after_ok. vm_compute. eexists. split; [reflexivity|discriminate].
Qed.
Print Assumptions C51_foreign_metadata_refuted.

(** a zarr format other than 2 and 3 is accepted, but cannot be opened. *)
Theorem C51_other_format_refuted :
  exists s' o, create_dataset ex_root_h ["x"%string] "uint8" [8] [2] "raw" [] (DZero false) "." 4 "default" []
    (ex_fs true 2) = (s', Ok o) /\ is_ok (open_dataset s' ex_root_h ["x"%string]) = false.
Proof. apply after_ok. vm_compute. reflexivity. Qed.
Print Assumptions C51_other_format_refuted.

(** C52.  A failing create_dataset leaves nothing behind, for options of the right
    types, compressors the format can name, fill values the element type can hold,
    and positive chunk extents.  (Missing: the other argument errors, for which it
    is false, see [C52_leftover_refuted]; [C52_leftovers] says what can be left.) *)
Theorem C52_atomic_partial root key dn sh ch cn op fill delim fmt enc shard s s' r :
  fs_ok s -> options_typed op ->
  (forall z c, is_zarr_group s (h_path root) = Ok z -> sfind cn string_to_compressor = Some c -> codec_supported z fmt c) ->
  (forall d, sfind dn n5_to_dtype = Some d -> exists e, element_fill d fill = Ok e) ->
  sh <> [] -> Forall (fun x => 0 < x) ch ->
  create_dataset root key dn sh ch cn op fill delim fmt enc shard s = (s', r) ->
  is_ok r = false -> s' = s.
Proof. exact (@create_atomic root key dn sh ch cn op fill delim fmt enc shard s s' r). Qed.
Print Assumptions C52_atomic_partial.

(** Whatever the arguments: at most the empty directories to the dataset, or the
    dataset with its metadata alone, are left. *)
Theorem C52_leftovers root key dn sh ch cn op fill delim fmt enc shard s s' r :
  fs_ok s -> create_dataset root key dn sh ch cn op fill delim fmt enc shard s = (s', r) -> is_ok r = false ->
  s' = s \/ only_dirs s s' (h_path root ++ key) \/
  exists name j, fresh_container s s' (h_path root ++ key) name j.
Proof.
  intros F C N. pose proof (create_fails root key dn sh ch cn op fill delim fmt enc shard F) as H.
  cbv zeta in H. rewrite C in H. destruct (H N) as [H'|(z & m & _ & _ & _ & _ & [[_ D]|[_ (j & _ & D)]])]; eauto.
Qed.
Print Assumptions C52_leftovers.

(** Under the same conditions creating succeeds wherever there is place. *)
Theorem C52_succeeds root key dn sh ch cn op fill delim fmt enc shard s z m :
  options_typed op -> is_zarr_group s (h_path root) = Ok z ->
  create_metadata dn sh ch z cn op fill delim fmt enc shard = Ok m ->
  codec_supported z fmt (md_comp m) -> (exists e, element_fill (md_dtype m) fill = Ok e) ->
  sh <> [] -> Forall (fun x => 0 < x) ch ->
  fs_ok s -> can_write (h_mode root) = true -> s (h_path root ++ key) = None -> way_free s (h_path root ++ key) ->
  exists s' o, create_dataset root key dn sh ch cn op fill delim fmt enc shard s = (s', Ok o).
Proof. exact (@create_succeeds root key dn sh ch cn op fill delim fmt enc shard s z m). Qed.
Print Assumptions C52_succeeds.

(** Creating where something exists fails and changes nothing, for datasets and
    groups, whatever the arguments. *)
Theorem C52_existing root key dn sh ch cn op fill delim fmt enc shard s :
  s (h_path root ++ key) <> None ->
  (let (s', r) := create_dataset root key dn sh ch cn op fill delim fmt enc shard s in s' = s /\ is_ok r = false) /\
  (let (s', r) := create_group root key fmt s in s' = s /\ is_ok r = false).
Proof.
  intros E. split; [exact (@create_existing root key dn sh ch cn op fill delim fmt enc shard s E)|
                    exact (@group_existing root key fmt s E)].
Qed.
Print Assumptions C52_existing.

Example C52_case :
  fs_ok (ex_fs true 2) /\ options_typed [("level"%string, OInt 5)] /\
  (forall z c, is_zarr_group (ex_fs true 2) ["f"%string] = Ok z -> sfind "blosc" string_to_compressor = Some c ->
     codec_supported z 2 c) /\
  (exists e, element_fill DT_uint8 (DZero false) = Ok e) /\
  is_ok (snd (create_dataset ex_root_h ["g"; "d"]%string "uint8" [8] [2] "blosc" [("level"%string, OInt 5)] (DZero false)
           "." 2 "default" [] (ex_fs true 2))) = false /\
  is_ok (snd (create_dataset ex_root_h ["x"]%string "uint8" [8; 8] [2] "blosc" [("level"%string, OInt 5)] (DZero false)
           "." 2 "default" [] (ex_fs true 2))) = false /\
  ex_fs true 2 ["f"; "g"; "d"]%string <> None.
Proof.
  split; [apply ex_fs_ok|]. split.
  { intros k v. cbn [sfind]. destruct (String.eqb_spec "level" k) as [Y|]; [|discriminate].
    intros X. inversion X; subst. split; discriminate. }
  split. { intros z c _ X. vm_compute in X. inversion X; subst. intros _. split; [discriminate|]. auto. }
  split; [eexists; vm_compute; reflexivity|]. repeat split; try (vm_compute; reflexivity). vm_compute. discriminate.
Qed.

(** xz is refused for zarr only when the metadata is written, after the directory
    has been made; repeating the call with another compressor then fails. *)
Theorem C52_leftover_refuted :
  exists s1 e, create_dataset ex_root_h ["x"%string] "uint8" [8] [2] "xz" [] (DZero false) "." 2 "default" []
    (ex_fs true 2) = (s1, Throw e) /\
    ex_fs true 2 ["f"; "x"]%string = None /\ s1 ["f"; "x"]%string = Some NDir /\
    is_ok (snd (create_dataset ex_root_h ["x"%string] "uint8" [8] [2] "raw" [] (DZero false) "." 2 "default" [] s1)) = false /\
    is_ok (snd (create_dataset ex_root_h ["x"%string] "uint8" [8] [2] "raw" [] (DZero false) "." 2 "default" []
                  (ex_fs true 2))) = true.
Proof. apply after_throw. vm_compute. repeat split; reflexivity. Qed.
Print Assumptions C52_leftover_refuted.

(** C64.  A node made as a group is a group, *)
Theorem C64_group root key fmt s s' : fs_ok s -> key_free key ->
  create_group root key fmt s = (s', Ok tt) -> is_sub_group s' (h_path root) key = Ok true.
Proof. exact (@new_group_is_group root key fmt s s'). Qed.
Print Assumptions C64_group.
(** a node made as a dataset is none, *)
Theorem C64_dataset root key dn sh ch cn op fill delim fmt enc shard s s' o :
  fs_ok s -> key_free key ->
  create_dataset root key dn sh ch cn op fill delim fmt enc shard s = (s', Ok o) ->
  is_sub_group s' (h_path root) key = Ok false.
Proof. exact (@create_is_no_group root key dn sh ch cn op fill delim fmt enc shard s s' o). Qed.
Print Assumptions C64_dataset.
(** and attributes do not change it: of zarr nodes, and of n5 datasets.  (Missing:
    attributes of n5 groups, see [C64_n5_group_refuted].) *)
Theorem C64_kept_partial k m root key v z ops s :
  key <> [] -> k = HDataset \/ z = true ->
  can_write m = true -> attr_node k s (root ++ key) v z -> Forall aop_ok ops ->
  is_sub_group (snd (api_run k m (root ++ key) ops s)) root key = is_sub_group s root key.
Proof. exact (@attributes_keep_kind k m root key v z ops s). Qed.
Print Assumptions C64_kept_partial.

Example C64_case :
  is_sub_group (ex_fs true 3) ["f"%string] ["g"%string] = Ok true /\
  is_sub_group (ex_fs true 3) ["f"%string] ["g"; "d"]%string = Ok false /\
  is_sub_group (ex_fs true 2) ["f"%string] ["g"%string] = Ok true /\
  is_sub_group (ex_fs true 2) ["f"%string] ["g"; "d"]%string = Ok false /\
  is_sub_group (ex_fs false 2) ["f"%string] ["g"%string] = Ok true /\
  is_sub_group (ex_fs false 2) ["f"%string] ["g"; "d"]%string = Ok false /\
  attr_node HDataset (ex_fs false 2) (["f"%string] ++ ["g"; "d"]%string) false false.
Proof. repeat split; try (vm_compute; reflexivity); vm_compute; discriminate. Qed.

Theorem C64_n5_group_refuted :
  exists s', write_attributes HGroup Mode_a ["f"; "g"]%string
    (JObj [("dimensions", JInt 3); ("blockSize", JInt 1); ("dataType", JStr "camera"); ("compression", JStr "none")]%string)
    (ex_fs false 2) = (s', Ok tt) /\
    is_sub_group (ex_fs false 2) ["f"%string] ["g"%string] = Ok true /\
    is_sub_group s' ["f"%string] ["g"%string] = Ok false.
Proof. apply after_unit. vm_compute. repeat split; reflexivity. Qed.
Print Assumptions C64_n5_group_refuted.

(** C65.  Each call leaves everything outside of its node as it is, apart from
    missing directories on the way that are made; *)
Theorem C65_outside m c s : outside_kept (target c) s (fst (run_ccall m c s)).
Proof. exact (@ccall_outside m c s). Qed.
Print Assumptions C65_outside.
(** so any history of calls on other nodes of a container (neither above nor below)
    leaves a node unchanged: it opens as before, has the same attributes, and
    every file below it is the same; *)
Theorem C65_siblings root key m cs s : s (h_path root) <> None ->
  Forall (sibling_call (h_path root) key) cs ->
  let s' := snd (run_ccalls m cs s) in
  open_dataset s' root key = open_dataset s root key /\
  (forall k, read_attributes k s' (h_path root ++ key) = read_attributes k s (h_path root ++ key)) /\
  (forall r, s' (h_path root ++ key ++ r) = s (h_path root ++ key ++ r)).
Proof. exact (@siblings root key m cs s). Qed.
Print Assumptions C65_siblings.
(** and the storage remains a tree. *)
Theorem C65_tree m cs s : fs_ok s -> Forall (fun c => forall p, c = CRemove p -> p <> []) cs ->
  fs_ok (snd (run_ccalls m cs s)).
Proof. exact (@ccalls_tree m cs s). Qed.
Print Assumptions C65_tree.

(** The names "g" and "g2" share their first character only. *)
Example C65_case :
  ex_fs true 2 ["f"%string] <> None /\
  Forall (sibling_call ["f"%string] ["g"%string])
    [CCreateGroup ["f"] ["g2"] 2; CWriteAttr HGroup ["f"; "g2"] (JObj [("a", JInt 1)]); CRemove ["f"; "g2"];
     CCreateDataset ["f"] ["g2"; "d"] "uint8" [8] [2] "raw" [] (DZero false) "." 2 "default" []]%string.
Proof.
  split; [vm_compute; discriminate|].
  repeat constructor; eexists; (split; [cbn [target]; (reflexivity || (instantiate (1 := ["g2"%string]); reflexivity))|]);
    repeat split; try discriminate; reflexivity.
Qed.

(** C66.  Removing a node removes exactly what is below it; *)
Theorem C66_remove h s : can_write (h_mode h) = true -> s (h_path h) <> None ->
  exists s', node_remove h s = (s', Ok tt) /\
    forall q, s' q = if below (h_path h) q then None else s q.
Proof. exact (@remove_exact h s). Qed.
Print Assumptions C66_remove.
(** removing what does not exist or through a read-only handle fails and changes
    nothing. *)
Theorem C66_refused h s : can_write (h_mode h) = false \/ s (h_path h) = None ->
  node_remove h s = (s, Throw EInvalidArgument).
Proof. exact (@remove_fails h s). Qed.
Print Assumptions C66_refused.
Example C66_case :
  ex_fs true 2 ["f"; "g"; "d"; ".zarray"]%string <> None /\
  fst (node_remove (Handle ["f"; "g"]%string Mode_a) (ex_fs true 2)) ["f"; "g"; "d"; ".zarray"]%string = None /\
  fst (node_remove (Handle ["f"; "g"]%string Mode_a) (ex_fs true 2)) ["f"; ".zgroup"]%string = ex_fs true 2 ["f"; ".zgroup"]%string.
Proof. repeat split; vm_compute; try reflexivity; discriminate. Qed.

(** C67.  Creating a group at a nested key makes the nodes on the way groups: n5.
    (Missing: zarr, see [C67_zarr_refuted].) *)
Theorem C67_n5_partial root k1 k2 fmt s s' : fs_ok s -> key_free k1 -> k2 <> [] ->
  (forall r, k2 <> "attributes.json"%string :: r) ->
  is_zarr_group s (h_path root) = Ok false -> s (h_path root ++ k1) = None ->
  create_group root (k1 ++ k2) fmt s = (s', Ok tt) ->
  is_sub_group s' (h_path root) k1 = Ok true.
Proof. exact (@n5_nested_groups root k1 k2 fmt s s'). Qed.
Print Assumptions C67_n5_partial.
Example C67_case :
  is_zarr_group (ex_fs false 2) ["f"%string] = Ok false /\ ex_fs false 2 ["f"; "x"]%string = None /\
  snd (create_group ex_root_h ["x"; "y"]%string 2 (ex_fs false 2)) = Ok tt.
Proof. repeat split; vm_compute; reflexivity. Qed.

Theorem C67_zarr_refuted : Forall (fun fmt =>
  snd (create_group ex_root_h ["x"; "y"]%string fmt (ex_fs true fmt)) = Ok tt /\
  fst (create_group ex_root_h ["x"; "y"]%string fmt (ex_fs true fmt)) ["f"; "x"]%string = Some NDir /\
  is_sub_group (fst (create_group ex_root_h ["x"; "y"]%string fmt (ex_fs true fmt))) ["f"%string] ["x"%string] = Ok false)
  [2; 3]%Z.
Proof. repeat constructor; vm_compute; reflexivity. Qed.
Print Assumptions C67_zarr_refuted.
