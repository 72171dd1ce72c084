(** Properties C21 and C22: chunk keys. *)
From Verif Require Import M_Base M_Text M_Key S_Text P_Key.
Local Open Scope string_scope.

(** C21: equal keys iff equal chunk ids. *)
Theorem C21_keys_injective k ids ids' : good_separator (k_delim k) ->
  (chunk_key k ids = chunk_key k ids' <-> ids = ids').
Proof. intros H. split; [now apply chunk_key_inj|congruence]. Qed.
Print Assumptions C21_keys_injective.

(** C21: no chunk overwrites a metadata or attributes file. *)
Theorem C21_keys_not_reserved k ids n : ids <> [] -> In n reserved_names -> chunk_key k ids <> n.
Proof. exact (@chunk_key_reserved k ids n). Qed.
Print Assumptions C21_keys_not_reserved.

(** C21 on the file system: after path resolution no chunk file is another chunk's
    file, nor a directory another chunk needs. *)
Theorem C21_paths_distinct k ids ids' : ids <> [] -> List.length ids = List.length ids' ->
  good_separator (k_delim k) -> k_delim k = "/" \/ slash_free (k_delim k) = true ->
  path_prefix (resolve (chunk_key k ids)) (resolve (chunk_key k ids')) -> ids = ids'.
Proof. exact (@chunk_paths_distinct k ids ids'). Qed.
Print Assumptions C21_paths_distinct.

(** C21 on the file system: no chunk path lies at or below a reserved file. *)
Theorem C21_paths_not_reserved k ids n rest : ids <> [] ->
  k_delim k = "/" \/ slash_free (k_delim k) = true ->
  In n reserved_names -> resolve (chunk_key k ids) <> (n :: rest)%list.
Proof. exact (@chunk_path_reserved k ids n rest). Qed.
Print Assumptions C21_paths_not_reserved.

(** C21: the text of the key as the formats prescribe it: zarr joins the chunk
    indices in order with the separator (version 3 "default" puts a "c" in front), n5
    joins them in reverse order with "/". *)
Theorem C21_key_format k ids :
  chunk_key k ids =
    if k_zarr k then
      String.concat (k_delim k)
        ((if (k_format k =? 3)%N && String.eqb (k_encoding k) "default" then ["c"%string] else []) ++
         map (fun i => NilZero.string_of_uint (N.to_uint i)) ids)%list
    else String.concat "/" (map (fun i => NilZero.string_of_uint (N.to_uint i)) (rev ids)).
Proof. exact (key_format k ids). Qed.
Print Assumptions C21_key_format.

Example C21_case :
  let k := KeyConfig true "/" 3 "default" in
  good_separator (k_delim k) /\ [1; 10; 0] <> [] /\
  chunk_key k [1; 10; 0] = "c/1/10/0" /\ resolve (chunk_key k [1; 10; 0]) = ["c"; "1"; "10"; "0"] /\
  chunk_key (KeyConfig true "." 2 "default") [1; 10; 0] = "1.10.0" /\
  chunk_key (KeyConfig false "." 2 "default") [1; 10; 0] = "0/10/1".
Proof. repeat split. discriminate. Qed.

(** C22 fails: with an empty or a digit separator different chunks share a key. *)
Theorem C22_any_separator_refuted :
  (exists ids ids', ids <> ids' /\ List.length ids = List.length ids' /\
     chunk_key (KeyConfig true "" 2 "default") ids = chunk_key (KeyConfig true "" 2 "default") ids') /\
  (exists ids ids', ids <> ids' /\ List.length ids = List.length ids' /\
     chunk_key (KeyConfig true "0" 2 "default") ids = chunk_key (KeyConfig true "0" 2 "default") ids').
Proof.
  split.
  - exists [1; 11], [11; 1]. repeat split; discriminate.
  - exists [1; 101], [101; 1]. repeat split; discriminate.
Qed.
Print Assumptions C22_any_separator_refuted.

(** C22 fails on the file system also for a separator with path syntax. *)
Theorem C22_path_separator_refuted :
  exists ids ids', ids <> ids' /\ List.length ids = List.length ids' /\
    good_separator "/../" /\
    resolve (chunk_key (KeyConfig true "/../" 2 "default") ids) =
    resolve (chunk_key (KeyConfig true "/../" 2 "default") ids').
Proof. exists [1; 2], [3; 2]. repeat split; discriminate. Qed.
Print Assumptions C22_path_separator_refuted.
