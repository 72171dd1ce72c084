(** Properties C43 - C47 and C63: dataset metadata. *)
From Coq Require Import ZArith String.
From Verif Require Import M_Base P_Base M_Blocking M_Double M_Json M_Metadata S_Metadata P_Metadata.
Import ListNotations.
Local Open Scope list_scope.
Local Open Scope N_scope.

(** C43: the metadata of every zarr v2 dataset that is accepted at creation and
    can be written is read back with the arguments of the creation: shape, chunk
    shape, data type, fill value, separator and codec (up to the number of blosc
    threads). *)
Theorem C43_round_trip dn sh ch cn o fill delim enc m j cfg :
  options_ok o ->
  create_metadata dn sh ch true cn o fill delim 2 enc [] = Ok m ->
  to_json m = Ok j -> init_compressor (md_comp m) (md_opts m) = Ok cfg ->
  exists m' cfg',
    from_json (reparse j) true = Ok m' /\ md_zarr m' = true /\ md_format m' = 2%Z /\
    md_shape m' = sh /\ md_chunks m' = ch /\ md_shard m' = [] /\
    sfind dn n5_to_dtype = Some (md_dtype m') /\
    md_fill m' = fill /\ md_delim m' = delim /\
    sfind cn string_to_compressor = Some (md_comp m') /\
    init_compressor (md_comp m') (md_opts m') = Ok cfg' /\ same_codec cfg cfg'.
Proof. exact (@v2_created dn sh ch cn o fill delim enc m j cfg). Qed.
Print Assumptions C43_round_trip.

(** A blosc dataset with fill value -1.5, created with defaults. *)
Definition ex_fill : dbl := DFin true 3 (-1).
Example C43_case :
  exists m j, create_metadata "uint16" [100; 7] [10; 3] true "blosc" [("level", OInt 9)]%string ex_fill "/" 2 "default" [] = Ok m /\
    to_json m = Ok j /\
    init_compressor (md_comp m) (md_opts m) = Ok (Cfg_blosc 9 1 "lz4" 0 1) /\ md_dtype m = DT_uint16.
Proof. do 2 eexists. repeat split; reflexivity. Qed.

(** C44, everything but the fill value and the stream header of zlib. *)
Theorem C44_round_trip_partial dn sh ch cn o fill delim fmt enc m j cfg :
  options_ok o ->
  create_metadata dn sh ch false cn o fill delim fmt enc [] = Ok m ->
  to_json m = Ok j -> init_compressor (md_comp m) (md_opts m) = Ok cfg ->
  exists m' cfg',
    from_json (reparse j) false = Ok m' /\ md_zarr m' = false /\
    md_shape m' = sh /\ md_chunks m' = ch /\ md_shard m' = [] /\
    sfind dn n5_to_dtype = Some (md_dtype m') /\
    (fill = DZero false -> md_fill m' = fill) /\
    sfind cn string_to_compressor = Some (md_comp m') /\
    init_compressor (md_comp m') (md_opts m') = Ok cfg' /\
    ((forall l, cfg <> Cfg_zlib l true) -> cfg' = cfg).
Proof. exact (@n5_created dn sh ch cn o fill delim fmt enc m j cfg). Qed.
Print Assumptions C44_round_trip_partial.

Example C44_case :
  exists m j, create_metadata "float32" [100; 7] [10; 3] false "gzip" [] (DZero false) "." 2 "default" [] = Ok m /\
    to_json m = Ok j /\ jfind "dimensions" j = Some (JArr [JUInt 7; JUInt 100]) /\
    init_compressor (md_comp m) (md_opts m) = Ok (Cfg_zlib 5 false).
Proof. do 2 eexists. repeat split; reflexivity. Qed.

(** C44 fails for the fill value: it is not part of n5 metadata.  A dataset created
    with fill value 1 has fill value 0 once it is opened again. *)
Theorem C44_fill_value_refuted :
  exists m j m',
    create_metadata "int32" [4] [2] false "raw" [] (DFin false 1 0) "." 2 "default" [] = Ok m /\
    to_json m = Ok j /\ from_json (reparse j) false = Ok m' /\
    element_fill (md_dtype m) (md_fill m) = Ok (FInt 1) /\
    element_fill (md_dtype m') (md_fill m') = Ok (FInt 0).
Proof. do 3 eexists. repeat split; reflexivity. Qed.
Print Assumptions C44_fill_value_refuted.

(** C44 fails for the option useZlib: the metadata says gzip, the creating object
    writes zlib streams. *)
Theorem C44_zlib_header_refuted :
  exists m j m',
    create_metadata "int32" [4] [2] false "zlib" [("useZlib", OBool true)]%string (DZero false) "." 2 "default" [] = Ok m /\
    to_json m = Ok j /\ from_json (reparse j) false = Ok m' /\
    init_compressor (md_comp m) (md_opts m) = Ok (Cfg_zlib 5 true) /\
    init_compressor (md_comp m') (md_opts m') = Ok (Cfg_zlib 5 false).
Proof. do 3 eexists. repeat split; reflexivity. Qed.
Print Assumptions C44_zlib_header_refuted.

(** C45, for codecs zarr v3 can express: not the zlib stream header, blosc shuffle
    0, 1 or 2.  The fill value read back is the same element (and the same number
    for floating point data types). *)
Theorem C45_round_trip_partial dn sh ch cn o fill delim enc shard m j cfg e :
  options_ok o -> dbl_ok fill ->
  create_metadata dn sh ch true cn o fill delim 3 enc shard = Ok m ->
  to_json m = Ok j -> init_compressor (md_comp m) (md_opts m) = Ok cfg ->
  element_fill (md_dtype m) fill = Ok e ->
  exists m' cfg',
    from_json (reparse j) true = Ok m' /\ md_zarr m' = true /\ md_format m' = 3%Z /\
    md_shape m' = sh /\ md_chunks m' = ch /\ md_shard m' = shard /\
    sfind dn n5_to_dtype = Some (md_dtype m') /\
    element_fill (md_dtype m') (md_fill m') = Ok e /\
    (~ integer_dtype (md_dtype m') -> md_fill m' = fill) /\
    md_delim m' = delim /\ md_enc m' = enc /\
    sfind cn string_to_compressor = Some (md_comp m') /\
    init_compressor (md_comp m') (md_opts m') = Ok cfg' /\
    (match cfg with
     | Cfg_zlib _ u => u = false
     | Cfg_blosc _ s _ _ _ => s = 0%Z \/ s = 1%Z \/ s = 2%Z
     | _ => True
     end -> same_codec cfg cfg').
Proof. exact (@v3_created dn sh ch cn o fill delim enc shard m j cfg e). Qed.
Print Assumptions C45_round_trip_partial.

(** A sharded uint64 dataset with fill value 2^53 (which is its own double) and the
    bit shuffle of blosc. *)
Example C45_case :
  exists m j, create_metadata "uint64" [100; 7] [10; 3] true "blosc" [("shuffle", OInt 2)]%string
      (DFin false 1 53) "." 3 "v2" [20; 3] = Ok m /\
    to_json m = Ok j /\ init_compressor (md_comp m) (md_opts m) = Ok (Cfg_blosc 5 2 "lz4" 0 1) /\
    element_fill (md_dtype m) (md_fill m) = Ok (FInt (2 ^ 53)) /\ dbl_ok (md_fill m).
Proof.
  do 2 eexists. repeat (split; [reflexivity|]). simpl. repeat split; try lia. exists xH. now right.
Qed.

(** C45 fails for the zlib stream header: a zarr v3 dataset created from C++ with
    codec "zlib" or "gzip" and default options writes zlib streams while its
    metadata names the gzip codec, and an object that opens it writes gzip. *)
Theorem C45_zlib_header_refuted :
  exists m j m',
    create_metadata "int32" [4] [2] true "gzip" [] (DZero false) "/" 3 "default" [] = Ok m /\
    to_json m = Ok j /\ from_json (reparse j) true = Ok m' /\
    jfind "codecs" j = Some (JArr [bytes_codec;
      JObj [("name", JStr "gzip"); ("configuration", JObj [("level", JInt 5)])]])%string /\
    init_compressor (md_comp m) (md_opts m) = Ok (Cfg_zlib 5 true) /\
    init_compressor (md_comp m') (md_opts m') = Ok (Cfg_zlib 5 false).
Proof. do 3 eexists. repeat split; reflexivity. Qed.
Print Assumptions C45_zlib_header_refuted.

(** A negative fill value for an unsigned type: undefined conversion when the
    metadata is written (and when the dataset is constructed). *)
Theorem C45_negative_fill_refuted :
  exists m,
    create_metadata "uint8" [4] [2] true "raw" [] (DFin true 1 0) "/" 3 "default" [] = Ok m /\
    to_json m = UB /\ element_fill (md_dtype m) (md_fill m) = UB.
Proof. eexists. repeat split; reflexivity. Qed.
Print Assumptions C45_negative_fill_refuted.

(** Integer fill values are kept as a double: the fill value 2^64 - 1 of another
    writer is read as 2^64, which no uint64 element can hold. *)
Theorem C45_large_fill_refuted :
  fill_of_json (DZero false) (JUInt (2 ^ 64 - 1)) = Ok (DFin false 1 64) /\
  element_fill DT_uint64 (DFin false 1 64) = UB /\
  fill_of_json (DZero false) (JUInt (2 ^ 53 + 1)) = Ok (DFin false 1 53).
Proof. repeat split; reflexivity. Qed.
Print Assumptions C45_large_fill_refuted.

(** C46: names.  Each table is the inverse of the other. *)
Theorem C46_zarr_dtypes d s : dtype_to_zarr d = Some s <-> sfind s zarr_to_dtype = Some d.
Proof. exact (@dtype_zarr_iff d s). Qed.
Print Assumptions C46_zarr_dtypes.
Theorem C46_n5_dtypes d s : dtype_to_n5 d = Some s <-> sfind s n5_to_dtype = Some d.
Proof. exact (@dtype_n5_iff d s). Qed.
Print Assumptions C46_n5_dtypes.
Theorem C46_n5_codecs c s : compressor_to_n5 c = Some s <-> sfind s n5_to_compressor = Some c.
Proof. exact (@comp_n5_iff c s). Qed.
Print Assumptions C46_n5_codecs.
Theorem C46_zarr_codecs c s :
  (compressor_to_zarr c = Some s -> sfind s zarr_to_compressor = Some c) /\
  (sfind s zarr_to_compressor = Some c ->
     compressor_to_zarr c = Some s \/ (c = C_zlib /\ s = "gzip"%string)).
Proof. exact (conj (@comp_zarr_back c s) (@comp_zarr_read c s)). Qed.
Print Assumptions C46_zarr_codecs.
(** Every data type has a zarr name, every non-complex one an n5 name, every codec
    but xz a zarr name, every codec an n5 name; no name is shared. *)
Theorem C46_names_exist :
  (forall d, exists s, dtype_to_zarr d = Some s) /\
  (forall d, (exists s, dtype_to_n5 d = Some s) <-> ~ In d [DT_complex64; DT_complex128; DT_complex256]) /\
  (forall c, (exists s, compressor_to_zarr c = Some s) <-> c <> C_xz) /\
  (forall c, exists s, compressor_to_n5 c = Some s).
Proof. exact names_exist. Qed.
Print Assumptions C46_names_exist.
Theorem C46_names_distinct d d' s :
  (dtype_to_zarr d = Some s -> dtype_to_zarr d' = Some s -> d = d') /\
  (dtype_to_n5 d = Some s -> dtype_to_n5 d' = Some s -> d = d').
Proof. exact (@names_distinct d d' s). Qed.
Print Assumptions C46_names_distinct.
Example C46_case : dtype_to_zarr DT_complex128 = Some "<c16"%string /\ compressor_to_n5 C_zlib = Some "gzip"%string.
Proof. split; reflexivity. Qed.

(** C47, for positive chunk extents: creation accepts exactly known names, equal
    dimensionalities and (for zarr v3 only) shards that consist of whole chunks,
    and is never undefined. *)
Theorem C47_accepts_partial dn sh ch z cn o fill delim fmt enc shard :
  Forall (fun c => 0 < c) ch ->
  create_metadata dn sh ch z cn o fill delim fmt enc shard <> UB /\
  ((exists m, create_metadata dn sh ch z cn o fill delim fmt enc shard = Ok m) <->
   (sfind dn n5_to_dtype <> None /\ sfind cn string_to_compressor <> None /\
    length sh = length ch /\
    (shard = [] \/ (z = true /\ fmt = 3%Z /\ shards_of_chunks shard ch)))).
Proof. exact (@create_accepts dn sh ch z cn o fill delim fmt enc shard). Qed.
Print Assumptions C47_accepts_partial.
Example C47_case :
  Forall (fun c => 0 < c) [2; 3] /\ shards_of_chunks [4; 3] [2; 3] /\
  (exists m, create_metadata "uint8" [9; 9] [2; 3] true "raw" [] (DZero false) "/" 3 "default" [4; 3] = Ok m) /\
  create_metadata "uint8" [9; 9] [2; 3] true "raw" [] (DZero false) "/" 3 "default" [5; 3] = Throw ERuntime.
Proof.
  split; [repeat constructor|]. split.
  - repeat constructor; [exists 2|exists 1]; split; lia.
  - split; [eexists; reflexivity|reflexivity].
Qed.

(** C47 fails for chunk extents of zero: they are accepted, and the grid of the
    dataset divides by them; with a shard shape the check itself does. *)
Theorem C47_zero_chunk_refuted :
  (exists m, create_metadata "uint8" [4] [0] true "raw" [] (DZero false) "." 2 "default" [] = Ok m /\
     mk_blocking (md_shape m) (md_chunks m) = UB) /\
  create_metadata "uint8" [4] [0] true "raw" [] (DZero false) "/" 3 "default" [4] = UB.
Proof. split; [eexists; split; reflexivity|reflexivity]. Qed.
Print Assumptions C47_zero_chunk_refuted.

(** C47 fails for chunks larger than the array: they are accepted. *)
Theorem C47_large_chunk_refuted :
  exists m, create_metadata "uint8" [4] [5] true "raw" [] (DZero false) "." 2 "default" [] = Ok m /\
    md_shape m = [4] /\ md_chunks m = [5].
Proof. eexists. repeat split; reflexivity. Qed.
Print Assumptions C47_large_chunk_refuted.

(** C47 fails on opening: a zarr v3 document whose shards are not whole chunks (3
    and 2) is accepted. *)
Definition ex_bad_shard : json :=
  JObj [("zarr_format", JUInt 3); ("node_type", JStr "array"); ("data_type", JStr "uint8");
        ("shape", JArr [JUInt 9]);
        ("chunk_grid", JObj [("name", JStr "regular");
           ("configuration", JObj [("chunk_shape", JArr [JUInt 3])])]);
        ("chunk_key_encoding", JObj [("name", JStr "default")]);
        ("fill_value", JUInt 0);
        ("codecs", JArr [JObj [("name", JStr "sharding_indexed");
           ("configuration", JObj [("chunk_shape", JArr [JUInt 2]); ("codecs", JArr [bytes_codec])])]])]%string.
Theorem C47_open_refuted :
  exists m, from_json ex_bad_shard true = Ok m /\ md_shard m = [3] /\ md_chunks m = [2] /\
    ~ shards_of_chunks (md_shard m) (md_chunks m).
Proof.
  eexists. split; [reflexivity|]. split; [reflexivity|]. split; [reflexivity|].
  simpl. intros H. inversion H as [|? ? ? ? [k [K1 K2]] ?]; subst. lia.
Qed.
Print Assumptions C47_open_refuted.

(** C63, zarr v3: whatever a zarr.json contains (floating point numbers only as
    fill value), opening it succeeds or throws. *)
Theorem C63_v3_partial j v : integral_fields j ->
  jfind "zarr_format" j = Some v -> jget_int v = Ok 3%Z -> from_json j true <> UB.
Proof. exact (@open_v3_no_ub j v). Qed.
Print Assumptions C63_v3_partial.

(** C63, zarr v2 and n5: the same for documents that have the mandatory keys. *)
Theorem C63_v2_partial j : integral_fields j ->
  has_keys ["dtype"; "shape"; "chunks"; "fill_value"; "compressor"]%string j ->
  (forall co, jfind "compressor" j = Some co -> co <> JNull ->
     has_keys ["id"%string] co /\
     (forall id c, jfind "id" co = Some (JStr id) -> sfind id zarr_to_compressor = Some c ->
        has_keys (zarr_codec_keys c) co)) ->
  from_json j true <> UB.
Proof. exact (@open_v2_no_ub j). Qed.
Print Assumptions C63_v2_partial.
Theorem C63_n5_partial j : integral_fields j ->
  has_keys ["dataType"; "dimensions"; "blockSize"]%string j ->
  (forall co ty c, jfind "compression" j = Some co -> jfind "type" co = Some (JStr ty) ->
     sfind ty n5_to_compressor = Some c -> has_keys (n5_codec_keys c) co) ->
  from_json j false <> UB.
Proof. exact (@open_n5_no_ub j). Qed.
Print Assumptions C63_n5_partial.

(** And metadata that is accepted has as many chunk extents as axes. *)
Theorem C63_dimensions j z m : from_json j z = Ok m -> length (md_shape m) = length (md_chunks m).
Proof. exact (@open_dimensions j z m). Qed.
Print Assumptions C63_dimensions.

Example C63_case : integral_fields ex_bad_shard /\ jget_int (JUInt 3) = Ok 3%Z /\
  jfind "zarr_format" ex_bad_shard = Some (JUInt 3).
Proof.
  split; [|split; reflexivity]. intros k v N. unfold ex_bad_shard. cbn [jfind jlookup].
  repeat (match goal with |- (if ?b then _ else _) = _ -> _ =>
    destruct b; [intros E; inversion E; subst; simpl; tauto|] end).
  discriminate.
Qed.

(** C63 fails for missing keys: a .zarray without dtype, an n5 attributes.json of
    a dataset without dataType. *)
Theorem C63_missing_key_refuted :
  from_json (JObj [("zarr_format", JUInt 2); ("shape", JArr [JUInt 4]); ("chunks", JArr [JUInt 2]);
                   ("fill_value", JUInt 0); ("compressor", JNull)])%string true = UB /\
  from_json (JObj [("dimensions", JArr [JUInt 4]); ("blockSize", JArr [JUInt 2]);
                   ("compression", JObj [("type", JStr "raw")])])%string false = UB.
Proof. split; reflexivity. Qed.
Print Assumptions C63_missing_key_refuted.
