(** Properties of metadata documents (C94) and of whole containers (C95) as other
    programs see them. *)
From Coq Require Import ZArith String Lia.
From Verif Require Import M_Base P_Format M_Text M_Double M_Json M_Mode M_Key M_View M_Format M_Metadata S_Metadata M_Dataset M_Sharded M_Access M_Store M_Fs M_Attributes S_Attributes P_Attributes
  M_Container S_Container P_Container P_Container2 M_Tree S_Array S_Grid S_Bytes S_Text S_Format S_Shard S_Dataset S_Access S_Sharded S_S3 S_Tree
  P_Tree P_Tree2 P_Tree3 P_Tree4 Properties_Attributes Properties_Container Properties_Dataset Properties_Access Properties_Sharded Properties_Tree
  S_Layout S_Interop Properties_Layout S_Document S_Described P_Document P_Document2 P_Document3 P_Document4.
Import ListNotations.
Local Open Scope list_scope.
Local Open Scope N_scope.
Local Notation length := List.length.

(** C94.  What createDataset writes describes the dataset it returns. *)
Theorem C94_written s s' root key dn sh ch cn op x delim fmt enc shard o z :
  fs_ok s -> is_zarr_group s (h_path root) = Ok z ->
  create_dataset root key dn sh ch cn op x delim fmt enc shard s = (s', Ok o) ->
  portable z fmt delim enc sh ch shard x o ->
  exists a, read_node s' (op_path o) = Some a /\ fits a o /\ do_fill a <> NoFill.
Proof. exact (@written_fits s s' root key dn sh ch cn op x delim fmt enc shard o z). Qed.
Print Assumptions C94_written.

(** zarr v3 names the settings of the compression, for blosc with the size of an element. *)
Theorem C94_settings s s' root key dn sh ch cn op x delim enc shard o v e :
  fs_ok s -> is_zarr_group s (h_path root) = Ok true ->
  create_dataset root key dn sh ch cn op x delim 3 enc shard s = (s', Ok o) ->
  element_of (op_dtype o) = Some e -> setting_of (op_codec o) (el_width e) = Some v ->
  exists j, s' (op_path o ++ ["zarr.json"%string]) = Some (NDoc j) /\ v3_settings j = Some v.
Proof. exact (@written_settings s s' root key dn sh ch cn op x delim enc shard o v e). Qed.
Print Assumptions C94_settings.

(** If openDataset accepts a document, then as the array that the document describes. *)
Theorem C94_opened_partial t root key a o : read_node t (h_path root ++ key) = Some a -> open_dataset t root key = Ok o ->
  (do_layout a <> N5 -> is_zarr_group t (h_path root) = Ok true) ->
  el_big (do_elem a) = false -> small_fill (do_fill a) -> (do_layout a = N5 -> do_stream a <> Zlib) -> do_shape a <> [] ->
  fits a o.
Proof. exact (@opened_fits t root key a o). Qed.
Print Assumptions C94_opened_partial.

(** It accepts ordinary documents. *)
Theorem C94_accepted t root key a j z : read_node t (h_path root ++ key) = Some a -> node_document t (h_path root ++ key) = Some j ->
  ordinary j a -> t (h_path root ++ key) = Some NDir ->
  is_zarr_group t (h_path root) = Ok z -> (do_layout a <> N5 -> z = true) ->
  exists o, open_dataset t root key = Ok o /\ fits a o.
Proof. exact (@ordinary_opens t root key a j z). Qed.
Print Assumptions C94_accepted.

(** ** Examples *)

Local Open Scope string_scope.

Definition put (q : path) (n : fnode) (t : fsys) : fsys := fun p => if path_eqb p q then Some n else t p.
Definition doc_at (name : string) (j : json) (t : fsys) : fsys := put ["f"; "x"; "y"; name] (NDoc j) (put ["f"; "x"; "y"] NDir (put ["f"; "x"] NDir t)).
Definition numbers (l : list N) : json := JArr (map JUInt l).
(** Documents as zarr-python and n5 write them. *)
Definition ex_zarray (dtype : string) (fill compressor : json) : json :=
  JObj [("chunks", numbers [2; 2]); ("compressor", compressor); ("dtype", JStr dtype); ("fill_value", fill);
        ("filters", JNull); ("order", JStr "C"); ("shape", numbers [5; 3]); ("zarr_format", JUInt 2); ("dimension_separator", JStr "/")].
Definition ex_named (name : string) (cfg : list (string * json)) : json := JObj [("name", JStr name); ("configuration", JObj cfg)].
Definition ex_bytes (endian : string) : json := ex_named "bytes" [("endian", JStr endian)].
Definition ex_v3doc (outer : list N) (codecs : list json) : json :=
  JObj [("shape", numbers [5; 3]); ("data_type", JStr "int16"); ("chunk_grid", ex_named "regular" [("chunk_shape", numbers outer)]);
        ("chunk_key_encoding", ex_named "default" [("separator", JStr "/")]); ("fill_value", JUInt 7); ("codecs", JArr codecs);
        ("attributes", JObj []); ("zarr_format", JUInt 3); ("node_type", JStr "array"); ("storage_transformers", JArr [])].
Definition ex_shards (endian location : string) : json :=
  ex_named "sharding_indexed" [("chunk_shape", numbers [2; 2]); ("codecs", JArr [ex_bytes "little"]);
    ("index_codecs", JArr [ex_bytes endian; JObj [("name", JStr "crc32c")]]); ("index_location", JStr location)].
Definition ex_n5doc (c : list (string * json)) : json :=
  JObj [("dimensions", numbers [3; 5]); ("blockSize", numbers [2; 2]); ("dataType", JStr "int16"); ("compression", JObj c)].

Definition ex_blosc : json := JObj [("blocksize", JUInt 0); ("clevel", JUInt 5); ("cname", JStr "lz4"); ("id", JStr "blosc"); ("shuffle", JUInt 1)].
Definition ex_foreign2 : fsys := doc_at ".zarray" (ex_zarray "<f4" (JStr "NaN") ex_blosc) (ex_fs true 2).
Definition ex_foreign3 : fsys := doc_at "zarr.json" (ex_v3doc [4; 2] [ex_shards "little" "end"]) (ex_fs true 3).
Definition ex_foreign5 : fsys := doc_at "attributes.json" (ex_n5doc [("type", JStr "bzip2"); ("blockSize", JUInt 9)]) (ex_fs false 2).

Example C94_accepted_case :
  (exists a, read_node ex_foreign2 ["f"; "x"; "y"] = Some a /\ ordinary (ex_zarray "<f4" (JStr "NaN") ex_blosc) a /\
     node_document ex_foreign2 ["f"; "x"; "y"] = Some (ex_zarray "<f4" (JStr "NaN") ex_blosc) /\
     ex_foreign2 ["f"; "x"; "y"] = Some NDir /\ is_zarr_group ex_foreign2 ["f"] = Ok true /\ do_stream a = Blosc /\ do_elem a = Element Real 4 false) /\
  (exists a, read_node ex_foreign3 ["f"; "x"; "y"] = Some a /\ ordinary (ex_v3doc [4; 2] [ex_shards "little" "end"]) a /\
     node_document ex_foreign3 ["f"; "x"; "y"] = Some (ex_v3doc [4; 2] [ex_shards "little" "end"]) /\
     ex_foreign3 ["f"; "x"; "y"] = Some NDir /\ is_zarr_group ex_foreign3 ["f"] = Ok true /\ do_layout a = Zarr3Sharded true "/" [4; 2] /\ do_chunks a = [2; 2] /\
     open_dataset ex_foreign3 ex_root_h ["x"; "y"] = Ok ex_v3) /\
  (exists a, read_node ex_foreign5 ["f"; "x"; "y"] = Some a /\ ordinary (ex_n5doc [("type", JStr "bzip2"); ("blockSize", JUInt 9)]) a /\
     node_document ex_foreign5 ["f"; "x"; "y"] = Some (ex_n5doc [("type", JStr "bzip2"); ("blockSize", JUInt 9)]) /\
     ex_foreign5 ["f"; "x"; "y"] = Some NDir /\ is_zarr_group ex_foreign5 ["f"] = Ok false /\ do_stream a = Bzip2 /\ do_shape a = [5; 3]).
Proof.
  split; [|split]; (eexists; split; [vm_compute; reflexivity|]; split;
    [|split; [reflexivity|split; [reflexivity|split; [vm_compute; reflexivity|split; [reflexivity|try split; vm_compute; reflexivity]]]]]).
  - constructor; cbn; try discriminate; auto; repeat split; try discriminate; try (now repeat constructor).
  - constructor; cbn; try discriminate; auto; repeat split; try discriminate; try (now repeat constructor).
  - constructor; cbn; try discriminate; auto; repeat split; try discriminate; try (now repeat constructor).
Qed.

Lemma ex_portable2 : portable true 2 "/" "default" [5; 3] [2; 2] [] ex_seven ex_v2.
Proof. constructor; auto; try (intros; cbn in *; congruence); [now repeat constructor|exact I|now left]. Qed.
Lemma ex_portable3 : portable true 3 "/" "default" [5; 3] [2; 2] [4; 2] ex_seven ex_v3.
Proof. constructor; auto; try (intros; cbn in *; congruence); [now repeat constructor|exact I|now left]. Qed.
Lemma ex_portable5 : portable false 2 "/" "default" [5; 3] [2; 2] [] (DZero false) ex_n5o.
Proof. constructor; auto; try (intros; cbn in *; congruence); [now repeat constructor|exact I|right; reflexivity]. Qed.
Example C94_written_case :
  fs_ok (ex_fs true 2) /\ is_zarr_group (ex_fs true 2) ["f"] = Ok true /\
  ex_make true 2 ["x"; "y"] [5; 3] [2; 2] ex_seven [] (ex_fs true 2) = (ex_t2, Ok ex_v2) /\
  portable true 2 "/" "default" [5; 3] [2; 2] [] ex_seven ex_v2 /\
  read_node ex_t2 ["f"; "x"; "y"] = Some (Document (Zarr2 "/") [5; 3] [2; 2] (Element Signed 2 false) (WholeFill 7) NoStream) /\
  ex_make true 3 ["x"; "y"] [5; 3] [2; 2] ex_seven [4; 2] (ex_fs true 3) = (ex_t3, Ok ex_v3) /\
  portable true 3 "/" "default" [5; 3] [2; 2] [4; 2] ex_seven ex_v3 /\
  read_node ex_t3 ["f"; "x"; "y"] = Some (Document (Zarr3Sharded true "/" [4; 2]) [5; 3] [2; 2] (Element Signed 2 false) (WholeFill 7) NoStream) /\
  ex_make false 2 ["x"; "y"] [5; 3] [2; 2] (DZero false) [] (ex_fs false 2) = (ex_t5, Ok ex_n5o) /\
  portable false 2 "/" "default" [5; 3] [2; 2] [] (DZero false) ex_n5o /\
  read_node ex_t5 ["f"; "x"; "y"] = Some (Document N5 [5; 3] [2; 2] (Element Signed 2 false) (WholeFill 0) NoStream).
Proof.
  split; [apply ex_fs_ok|]. split; [vm_compute; reflexivity|]. split; [exact ex_made2|]. split; [exact ex_portable2|]. split; [vm_compute; reflexivity|].
  split; [exact ex_made3|]. split; [exact ex_portable3|]. split; [vm_compute; reflexivity|].
  split; [exact ex_made5|]. split; [exact ex_portable5|]. vm_compute. reflexivity.
Qed.

Example C94_settings_case :
  let o := Opened ["f"; "x"; "y"] Mode_a (KeyConfig true "/" 3 "default") DT_int16 [5; 3] [2; 2] (FInt 7) (Cfg_blosc 5 2 "lz4" 0 4) [4; 2] in
  let make := create_dataset ex_root_h ["x"; "y"] "int16" [5; 3] [2; 2] "blosc"
    [("level", OInt 5); ("shuffle", OInt 2); ("codec", OStr "lz4"); ("nthreads", OInt 4)] ex_seven "/" 3 "default" [4; 2] in
  is_zarr_group (ex_fs true 3) ["f"] = Ok true /\ (exists s' o', make (ex_fs true 3) = (s', Ok o') /\ o' = o) /\
  element_of (op_dtype o) = Some (Element Signed 2 false) /\
  setting_of (op_codec o) 2 = Some (BloscSetting "lz4" 5 "bitshuffle" 2 0).
Proof.
  intros o make. split; [vm_compute; reflexivity|]. split; [|split; reflexivity].
  apply after_ok. vm_compute. reflexivity.
Qed.

(** Findings.  zarr v3: the byte order is not looked at, a big endian array is opened as a
    little endian one; *)
Theorem C94_big_endian_refuted :
  let t := doc_at "zarr.json" (ex_v3doc [2; 2] [ex_bytes "big"]) (ex_fs true 3) in
  exists a o, read_node t ["f"; "x"; "y"] = Some a /\ open_dataset t ex_root_h ["x"; "y"] = Ok o /\
    do_elem a = Element Signed 2 true /\ element_of (op_dtype o) = Some (Element Signed 2 false) /\ ~ fits a o.
Proof.
  eexists; eexists. split; [vm_compute; reflexivity|]. split; [vm_compute; reflexivity|]. split; [reflexivity|]. split; [reflexivity|].
  intros [_ _ _ H _ _]. discriminate H.
Qed.
Print Assumptions C94_big_endian_refuted.
(** n5: blocks that are said to be zlib streams are taken for gzip streams; *)
Theorem C94_use_zlib_refuted :
  let t := doc_at "attributes.json" (ex_n5doc [("type", JStr "gzip"); ("useZlib", JBool true); ("level", JUInt 5)]) (ex_fs false 2) in
  exists a o, read_node t ["f"; "x"; "y"] = Some a /\ open_dataset t ex_root_h ["x"; "y"] = Ok o /\
    do_stream a = Zlib /\ stream_of (op_codec o) = Gzip.
Proof. eexists; eexists. split; [vm_compute; reflexivity|]. split; [vm_compute; reflexivity|]. split; reflexivity. Qed.
Print Assumptions C94_use_zlib_refuted.
(** zarr v2: a fill value of null (the reader's: undefined) of an integer array is converted from NaN,
    which is undefined behaviour; *)
Theorem C94_null_fill_refuted :
  let t := doc_at ".zarray" (ex_zarray "<i2" JNull JNull) (ex_fs true 2) in
  (exists a, read_node t ["f"; "x"; "y"] = Some a /\ do_fill a = NoFill) /\ open_dataset t ex_root_h ["x"; "y"] = UB.
Proof. split; [eexists; split; vm_compute; reflexivity|vm_compute; reflexivity]. Qed.
Print Assumptions C94_null_fill_refuted.
(** zarr v2: a compressor without the parameter that the library expects is undefined behaviour; *)
Theorem C94_missing_level_refuted :
  let t := doc_at ".zarray" (ex_zarray "<i2" (JUInt 7) (JObj [("id", JStr "zlib")])) (ex_fs true 2) in
  (exists a, read_node t ["f"; "x"; "y"] = Some a /\ do_stream a = Zlib) /\ open_dataset t ex_root_h ["x"; "y"] = UB.
Proof. split; [eexists; split; vm_compute; reflexivity|vm_compute; reflexivity]. Qed.
Print Assumptions C94_missing_level_refuted.
(** zarr v2: not all type strings of single bytes are understood; *)
Theorem C94_byte_type_refuted :
  let t := doc_at ".zarray" (ex_zarray "<i1" (JUInt 7) JNull) (ex_fs true 2) in
  (exists a, read_node t ["f"; "x"; "y"] = Some a /\ do_elem a = Element Signed 1 false) /\
  open_dataset t ex_root_h ["x"; "y"] = Throw ERuntime.
Proof. split; [eexists; split; vm_compute; reflexivity|vm_compute; reflexivity]. Qed.
Print Assumptions C94_byte_type_refuted.
(** zarr v3: an index at the start of shards or with another byte order, other grids and
    key encodings, a second compression, storage transformers are not noticed: the dataset is opened as if
    they were not there. *)
Definition ex_other (k : string) (v : json) (j : json) : json :=
  match j with JObj l => JObj (map (fun p => if String.eqb (fst p) k then (k, v) else p) l) | _ => j end.
Theorem C94_unknown_accepted_refuted :
  let opens j := open_dataset (doc_at "zarr.json" j (ex_fs true 3)) ex_root_h ["x"; "y"] in
  let plain := Opened ["f"; "x"; "y"] Mode_a (KeyConfig true "/" 3 "default") DT_int16 [5; 3] [2; 2] (FInt 7) Cfg_raw [] in
  let j0 := ex_v3doc [2; 2] [ex_bytes "little"] in
  Forall (fun j => read_v3 j = None /\ opens j = Ok ex_v3) [ex_v3doc [4; 2] [ex_shards "little" "start"]; ex_v3doc [4; 2] [ex_shards "big" "end"]] /\
  Forall (fun j => read_v3 j = None /\ opens j = Ok plain)
    [ex_other "chunk_grid" (ex_named "rectilinear" [("chunk_shape", numbers [2; 2])]) j0;
     ex_other "storage_transformers" (JArr [ex_named "cipher" []]) j0] /\
  (exists o, opens (ex_v3doc [2; 2] [ex_bytes "little"; ex_named "zstd" []; ex_named "gzip" []]) = Ok o /\ stream_of (op_codec o) = Gzip /\
     read_v3 (ex_v3doc [2; 2] [ex_bytes "little"; ex_named "zstd" []; ex_named "gzip" []]) = None) /\
  (exists o, opens (ex_other "chunk_key_encoding" (ex_named "reversed" []) j0) = Ok o /\
     read_v3 (ex_other "chunk_key_encoding" (ex_named "reversed" []) j0) = None).
Proof.
  cbv zeta. split; [|split; [|split]].
  - repeat apply Forall_cons; try apply Forall_nil; (split; vm_compute; reflexivity).
  - repeat apply Forall_cons; try apply Forall_nil; (split; vm_compute; reflexivity).
  - eexists. split; [vm_compute; reflexivity|]. split; [reflexivity|vm_compute; reflexivity].
  - eexists. split; vm_compute; reflexivity.
Qed.
Print Assumptions C94_unknown_accepted_refuted.
(** zarr v2: a fill value with a fraction is recorded for integers, whose elements are cut. *)
Theorem C94_fraction_refuted :
  let r := ex_make true 2 ["x"; "y"] [5; 3] [2; 2] (DFin false 3 (-1)) [] (ex_fs true 2) in
  snd r = Ok (Opened ["f"; "x"; "y"] Mode_a (KeyConfig true "/" 2 "default") DT_int16 [5; 3] [2; 2] (FInt 1) Cfg_raw []) /\
  read_node (fst r) ["f"; "x"; "y"] = None.
Proof. split; vm_compute; reflexivity. Qed.
Print Assumptions C94_fraction_refuted.

(** C95.  A dataset is made and used, in any history of calls on it and on other nodes of the
    container.  A reader of the published formats that is given nothing but the tree finds the array: from the
    document the place, the grid, the type, the fill value and the compression, from the files the elements. *)
Theorem C95_array M D V root key dn sh ch cn op x0 delim fmt enc t t1 o z l :
  fs_ok t -> key_free key -> options_ok op -> dbl_ok x0 -> is_zarr_group t (h_path root) = Ok z ->
  create_dataset root key dn sh ch cn op x0 delim fmt enc [] t = (t1, Ok o) ->
  portable z fmt delim enc sh ch [] x0 o -> agree D V M o ->
  let d := array_of M o in dataset_ok d -> op_shard o = [] -> Forall (event_ok (h_path root) key o d) l ->
  let t2 := fst (history (run_step M) (map (event_step o) l) t1) in
  exists a, read_node t2 (h_path root ++ key)%list = Some a /\ fits a o /\
    forall x, in_shape (do_shape a) x -> exists v,
      element_at (seen D V a) (files_at (h_path root ++ key)%list t2) x = Some v /\
      same_value d v (apply_ops d (array_ops l) (fun _ => d_fill d) x) /\
      (t_float (d_type d) = false -> v = apply_ops d (array_ops l) (fun _ => d_fill d) x).
Proof.
  intros F K Oo Df Z C P A d Ok Sh H t2.
  rewrite <- (aa_path (@created_as_asked root key dn sh ch cn op x0 delim fmt enc [] t t1 o z F Z C)).
  exact (@reader_array M D V root key dn sh ch cn op x0 delim fmt enc [] t t1 o z F K Oo Df Z C P A l Ok Sh H).
Qed.
Print Assumptions C95_array.

Theorem C95_sharded M D V root key dn sh ch cn op x0 delim fmt enc shard t t1 o z l sd :
  fs_ok t -> key_free key -> options_ok op -> dbl_ok x0 -> is_zarr_group t (h_path root) = Ok z ->
  create_dataset root key dn sh ch cn op x0 delim fmt enc shard t = (t1, Ok o) ->
  portable z fmt delim enc sh ch shard x0 o -> agree D V M o ->
  op_shard o <> [] -> open_sharded (array_of M o) (op_shard o) = Ok sd -> sharded_ok sd ->
  let d := sd_base sd in Forall (event_ok (h_path root) key o d) l ->
  let t2 := fst (history (run_step M) (map (event_step o) l) t1) in
  exists a, read_node t2 (h_path root ++ key)%list = Some a /\ fits a o /\
    forall x, in_shape (do_shape a) x -> exists v,
      element_at (seen D V a) (files_at (h_path root ++ key)%list t2) x = Some v /\
      same_value d v (apply_ops d (array_ops l) (fun _ => d_fill d) x) /\
      (t_float (m_elem M (op_dtype o)) = false -> v = apply_ops d (array_ops l) (fun _ => d_fill d) x).
Proof.
  intros F K Oo Df Z C P A Sh Os Ok d H t2.
  rewrite <- (aa_path (@created_as_asked root key dn sh ch cn op x0 delim fmt enc shard t t1 o z F Z C)).
  exact (@reader_sharded M D V root key dn sh ch cn op x0 delim fmt enc shard t t1 o z F K Oo Df Z C P A l sd Sh Os Ok H).
Qed.
Print Assumptions C95_sharded.

(** The other way round: a dataset that another program made is read as that program means it. *)
Theorem C95_foreign M D V a o t ov off out : fits a o -> do_fill a <> NoFill -> agree D V M o ->
  accepts (D (do_stream a)) (m_codec M (op_codec o)) -> dataset_place o t ->
  op_shard o = [] -> dataset_ok (array_of M o) ->
  region_ok (array_of M o) off (v_shape ov) -> out_view_ok ov (lenN out) ->
  let st := files_at (op_path o) t in
  (forall i, in_shape (v_shape ov) i -> element_at (seen D V a) st (vadd off i) <> None) ->
  (do_layout a = N5 -> forall c file, overlaps (do_shape a) (do_chunks a) off (v_shape ov) c -> st (n5_name c) = Some file ->
     n5_dims file = rev (chunk_extent (do_shape a) (do_chunks a) c) \/ n5_dims file = rev (do_chunks a)) ->
  exists out', snd (tree_call M o (KReadArray ov off out) t) = Ok (ACells false out') /\ lenN out' = lenN out /\
    (forall i, in_shape (v_shape ov) i -> exists v, element_at (seen D V a) st (vadd off i) = Some v /\
       getN out' (v_off ov + lin (v_strides ov) i) = Ok v) /\
    (forall k, (forall i, in_shape (v_shape ov) i -> k <> v_off ov + lin (v_strides ov) i) -> getN out' k = getN out k).
Proof. intros Fa Nf Ag Ac Pl. exact (@foreign_array M D V a o t Fa Nf Ag Ac Pl ov off out). Qed.
Print Assumptions C95_foreign.

Theorem C95_foreign_sharded M D V a o t sd L ov off out : fits a o -> do_fill a <> NoFill -> agree D V M o ->
  accepts (D (do_stream a)) (m_codec M (op_codec o)) -> dataset_place o t ->
  op_shard o <> [] -> k_zarr (op_keys o) = true -> open_sharded (array_of M o) (op_shard o) = Ok sd -> sharded_ok sd ->
  let st := files_at (op_path o) t in
  (forall x, in_shape (do_shape a) x -> element_at (seen D V a) st x <> None) ->
  prod (sd_cps sd) * L < 2 ^ 64 - 1 ->
  (forall c file, valid_chunk (do_shape a) (do_chunks a) c -> st (shard_key sd c) = Some file ->
     Forall is_byte file /\ intact_shard (sd_cps sd) file /\ lenN file <= L) ->
  region_ok (sd_base sd) off (v_shape ov) -> out_view_ok ov (lenN out) ->
  exists out', snd (tree_call M o (KReadArray ov off out) t) = Ok (ACells false out') /\ lenN out' = lenN out /\
    (forall i, in_shape (v_shape ov) i -> exists v, element_at (seen D V a) st (vadd off i) = Some v /\
       getN out' (v_off ov + lin (v_strides ov) i) = Ok v) /\
    (forall k, (forall i, in_shape (v_shape ov) i -> k <> v_off ov + lin (v_strides ov) i) -> getN out' k = getN out k).
Proof. intros Fa Nf Ag Ac Pl. exact (@foreign_shards M D V a o t Fa Nf Ag Ac Pl sd L ov off out). Qed.
Print Assumptions C95_foreign_sharded.

(** ** Examples *)

Definition ex_D (s : stream) : bytes -> N -> option bytes := raw_reader.
Definition ex_V (e : element) (f : fill) : list N :=
  match f with WholeFill z => [Z.to_N (z mod 256); Z.to_N (z / 256 mod 256)] | _ => [0; 0] end.
Lemma ex_agree o z : op_dtype o = DT_int16 -> op_fill o = FInt z -> agree ex_D ex_V ex_M o.
Proof.
  intros Ed Ef. constructor.
  - rewrite Ed. intros e H. injection H as <-. reflexivity.
  - rewrite Ed, Ef. intros e f _ Nf H. destruct f as [|z'|x]; [congruence| |contradiction]. cbn in H. subst z'. reflexivity.
  - apply raw_reader_undoes.
Qed.
Definition ex_after2 : fsys := fst (history (run_step ex_M) (map (event_step ex_v2) (ex_events ex_v2)) ex_t2).
Definition ex_events3 : list event := (map EOp Properties_Access.ex_ops ++ [EOther ex_rm])%list.
Definition ex_after3 : fsys := fst (history (run_step ex_M) (map (event_step ex_v3) ex_events3) ex_t3).
Definition ex_points : list (list N) := [[0; 0]; [1; 1]; [2; 1]; [3; 2]; [1; 2]; [4; 1]].
(** What the reader finds, all by itself. *)
Definition found (t : fsys) (p : path) : list (option bytes) :=
  match read_node t p with Some a => map (element_at (seen ex_D ex_V a) (files_at p t)) ex_points | None => [] end.

(** The hypotheses of C95_array and C95_sharded about the histories are those of C91_case. *)
Example C95_case :
  dbl_ok ex_seven /\ portable true 2 "/" "default" [5; 3] [2; 2] [] ex_seven ex_v2 /\ agree ex_D ex_V ex_M ex_v2 /\
  Forall (event_ok ["f"] ["x"; "y"] ex_v2 (array_of ex_M ex_v2)) (ex_events ex_v2) /\
  found ex_after2 ["f"; "x"; "y"] = [Some [8; 0]; Some [1; 0]; Some [2; 0]; Some [6; 0]; Some [7; 0]; Some [9; 1]] /\
  portable true 3 "/" "default" [5; 3] [2; 2] [4; 2] ex_seven ex_v3 /\ agree ex_D ex_V ex_M ex_v3 /\
  Forall (event_ok ["f"] ["x"; "y"] ex_v3 (sd_base ex_sharded)) ex_events3 /\
  found ex_after3 ["f"; "x"; "y"] = [Some [8; 0]; Some [1; 0]; Some [2; 0]; Some [6; 0]; Some [7; 0]; Some [9; 1]].
Proof.
  pose proof C91_case as H. decompose [and] H. split; [assumption|]. split; [apply ex_portable2|]. split; [now apply (@ex_agree _ 7)|].
  split; [assumption|]. split; [vm_compute; reflexivity|]. split; [apply ex_portable3|]. split; [now apply (@ex_agree _ 7)|].
  split; [assumption|]. vm_compute. reflexivity.
Qed.

(** The same files under a document of another program. *)
Definition ex_swapped (name : string) (j : json) (t : fsys) : fsys := put ["f"; "x"; "y"; name] (NDoc j) t.
Definition ex_them2 : fsys := ex_swapped ".zarray" (ex_zarray "<i2" (JUInt 7) JNull) ex_after2.
Definition ex_them3 : fsys := ex_swapped "zarr.json" (ex_v3doc [4; 2] [ex_shards "little" "end"]) ex_after3.
Lemma below_full p q : path_eqb p q = true -> p = q.
Proof. now apply path_eqb_eq. Qed.
Lemma swapped_place o t q i j : dataset_place o t -> t q = Some (NDoc i) -> dataset_place o (put q (NDoc j) t).
Proof.
  intros [[F1 F2] Dr Ch Di] Hq.
  assert (S : forall p, put q (NDoc j) t p = t p \/ (p = q /\ put q (NDoc j) t p = Some (NDoc j))).
  { intros p. unfold put. destruct (path_eqb p q) eqn:E; [right|now left]. split; [now apply below_full|reflexivity]. }
  assert (Dd : forall p, t p = Some NDir -> put q (NDoc j) t p = Some NDir).
  { intros p Hp. destruct (S p) as [-> |[-> _]]; congruence. }
  constructor; auto.
  - split; [auto|]. intros p a H. apply Dd, F2 with (a := a). destruct (S (p ++ [a])%list) as [E|[E _]]; [congruence|]. rewrite E, Hq. discriminate.
  - intros p Hp. destruct (S p) as [-> |[-> _]]; [auto|]. destruct (Ch q Hp) as [E|[b E]]; congruence.
  - intros p Hp. destruct (S p) as [-> |[-> _]]; [auto|]. destruct (Di q Hp) as [E|E]; congruence.
Qed.

Lemma ex_still2 : dataset_place ex_v2 ex_after2.
Proof.
  pose proof C91_case as H. decompose [and] H. clear H. unfold ex_after2.
  apply (@life_history ex_M ["f"] ["x"; "y"] ex_v2); [apply ex_obj_ok|reflexivity|discriminate| |apply ex_place].
  apply Forall_map. eapply Forall_impl; [|eassumption]. intros e. apply event_life; [apply ex_obj_ok|reflexivity].
Qed.
Lemma ex_place3 : dataset_place ex_v3 ex_t3.
Proof.
  apply (@C89_created ex_root_h ["x"; "y"] "int16" [5; 3] [2; 2] "raw" [] ex_seven "/" 3 "default" [4; 2] (ex_fs true 3) ex_t3 ex_v3 true (ex_fs_ok _ _)); [vm_compute; reflexivity| |reflexivity|exact ex_made3].
  intros _. split; [reflexivity|now left].
Qed.
Lemma ex_still3 : dataset_place ex_v3 ex_after3.
Proof.
  pose proof C91_case as H. decompose [and] H. clear H. unfold ex_after3, ex_events3.
  apply (@life_history ex_M ["f"] ["x"; "y"] ex_v3); [apply ex_obj_ok|reflexivity|discriminate| |apply ex_place3].
  apply Forall_map. eapply Forall_impl; [|eassumption]. intros e. apply event_life; [apply ex_obj_ok|reflexivity].
Qed.

Example C95_foreign_case :
  (exists a, read_node ex_them2 ["f"; "x"; "y"] = Some a /\ do_fill a <> NoFill /\ fits a ex_v2 /\ open_dataset ex_them2 ex_root_h ["x"; "y"] = Ok ex_v2 /\
     accepts (ex_D (do_stream a)) (m_codec ex_M (op_codec ex_v2)) /\ dataset_place ex_v2 ex_them2) /\
  found ex_them2 ["f"; "x"; "y"] = [Some [8; 0]; Some [1; 0]; Some [2; 0]; Some [6; 0]; Some [7; 0]; Some [9; 1]] /\
  snd (tree_call ex_M ex_v2 (KReadArray (View 0 [2; 2] [2; 1]) [0; 0] (repeat [0; 0] 4)) ex_them2) =
    Ok (ACells false [[8; 0]; [7; 0]; [7; 0]; [1; 0]]) /\
  (exists a, read_node ex_them3 ["f"; "x"; "y"] = Some a /\ do_fill a <> NoFill /\ fits a ex_v3 /\ open_dataset ex_them3 ex_root_h ["x"; "y"] = Ok ex_v3 /\
     accepts (ex_D (do_stream a)) (m_codec ex_M (op_codec ex_v3)) /\ dataset_place ex_v3 ex_them3) /\
  found ex_them3 ["f"; "x"; "y"] = [Some [8; 0]; Some [1; 0]; Some [2; 0]; Some [6; 0]; Some [7; 0]; Some [9; 1]].
Proof.
  pose proof C91_case as H. decompose [and] H. clear H.
  split; [|split; [vm_compute; reflexivity|split; [vm_compute; reflexivity|split; [|vm_compute; reflexivity]]]].
  - eexists. split; [vm_compute; reflexivity|]. split; [discriminate|]. split; [now constructor|]. split; [vm_compute; reflexivity|].
    split; [apply raw_reader_accepts|]. eapply swapped_place; [apply ex_still2|vm_compute; reflexivity].
  - eexists. split; [vm_compute; reflexivity|]. split; [discriminate|]. split; [now constructor|]. split; [vm_compute; reflexivity|].
    split; [apply raw_reader_accepts|]. eapply swapped_place; [apply ex_still3|vm_compute; reflexivity].
Qed.
