(** Specification vocabulary for dataset metadata: what it means that the metadata
    read back describes the same dataset. *)
From Coq Require Import ZArith String.
From Verif Require Import M_Base M_Double M_Json M_Metadata.
Import ListNotations.
Local Open Scope list_scope.
Local Open Scope N_scope.

(** The same array: extents, grid and element type. *)
Record same_array (m m' : metadata) : Prop := {
  sa_shape : md_shape m' = md_shape m;
  sa_chunks : md_chunks m' = md_chunks m;
  sa_shard : md_shard m' = md_shard m;
  sa_dtype : md_dtype m' = md_dtype m
}.

(** Two codec configurations that produce the same bytes: everything but the
    number of threads of blosc. *)
Definition same_codec (c c' : codec_config) : Prop :=
  match c, c' with
  | Cfg_blosc l s n b _, Cfg_blosc l' s' n' b' _ => l = l' /\ s = s' /\ n = n' /\ b = b'
  | _, _ => c = c'
  end.

(** Options hold ints: values of the C++ type int. *)
Definition is_int (z : Z) : Prop := (- 2 ^ 31 <= z < 2 ^ 31)%Z.
Definition options_ok (o : options) : Prop :=
  forall k z, In (k, OInt z) o -> is_int z.

(** Data types with integer values. *)
Definition integer_dtype (d : dtype) : Prop :=
  match d with
  | DT_int8 | DT_int16 | DT_int32 | DT_int64
  | DT_uint8 | DT_uint16 | DT_uint32 | DT_uint64 => True
  | _ => False
  end.

(** No floating point number anywhere in a document. *)
Fixpoint no_reals (j : json) : Prop :=
  match j with
  | JReal _ => False
  | JArr l => (fix go l := match l with [] => True | x :: r => no_reals x /\ go r end) l
  | JObj l => (fix go l := match l with [] => True | (_, x) :: r => no_reals x /\ go r end) l
  | _ => True
  end.

(** Along every axis a shard consists of a positive whole number of chunks. *)
Definition shards_of_chunks (shard chunks : list N) : Prop :=
  Forall2 (fun s c => exists k, 1 <= k /\ s = k * c) shard chunks.

(** The entries of a document that are not the fill value hold no floating point
    numbers (extents, levels and names are integers and text in every document
    written by a zarr or n5 library). *)
Definition integral_fields (j : json) : Prop :=
  forall k v, k <> "fill_value"%string -> jfind k j = Some v -> no_reals v.

(** The keys an entry must have. *)
Definition has_keys (ks : list string) (j : json) : Prop :=
  Forall (fun k => jfind k j <> None) ks.

(** The option keys of a zarr v2 compressor entry, and of an n5 compression
    entry. *)
Definition zarr_codec_keys (c : compressor) : list string :=
  (match c with
  | C_blosc => ["cname"; "clevel"; "shuffle"]
  | C_zlib | C_bzip2 | C_zstd => ["level"]
  | C_lz4 => ["acceleration"]
  | C_raw | C_xz => []
  end)%string.
Definition n5_codec_keys (c : compressor) : list string :=
  (match c with
  | C_blosc => ["cname"; "clevel"; "shuffle"]
  | C_zlib | C_zstd => ["level"]
  | C_bzip2 | C_lz4 => ["blockSize"]
  | C_xz => ["preset"]
  | C_raw => []
  end)%string.
