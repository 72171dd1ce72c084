(** Model of the chunk keys (include/z5/handle.hxx) and of the paths they are
    turned into (include/z5/filesystem/handle.hxx). *)
From Verif Require Import M_Base M_Text.

(** The arguments of getChunkKey, include/z5/handle.hxx:189-191, as stored in the
    dataset handle (zarrDelimiter, zarrFormat, chunkKeyEncoding). *)
Record key_config := KeyConfig {
  k_zarr : bool;            (* isZarr *)
  k_delim : string;         (* zarrDelimiter *)
  k_format : N;             (* zarrFormat *)
  k_encoding : string       (* chunkKeyEncoding *)
}.

(** Chunk::getChunkKey, include/z5/handle.hxx:189-217. *)
Definition chunk_key (k : key_config) (ids : shape) : string :=
  if k_zarr k then
    if (k_format k =? 3) && String.eqb (k_encoding k) "default" then
      fold_left (fun name idx => (name ++ k_delim k ++ to_string idx)%string) ids "c"%string
    else join ids "" (k_delim k)
  else join (rev ids) "" "/".

(** Path resolution of ds.path() / key, include/z5/filesystem/handle.hxx:273
    (Chunk constructor), by the operating system: split at "/", drop empty and "."
    components, ".." goes up.  Simplified: no symbolic links; going up from the
    dataset directory leaves the dataset and is recorded as "..". *)
Fixpoint split_slash (s cur : string) : list string :=
  match s with
  | EmptyString => [cur]
  | String c r => if Ascii.eqb c "/" then cur :: split_slash r ""
                  else split_slash r (cur ++ String c "")
  end.

(** Path resolution, see [split_slash]: components, processed left to right. *)
Definition resolve (key : string) : list string :=
  rev (fold_left (fun acc c =>
    if String.eqb c "" || String.eqb c "." then acc
    else if String.eqb c ".." then
      match acc with
      | [] => [c]
      | t :: r => if String.eqb t ".." then c :: acc else r
      end
    else c :: acc) (split_slash key "") []).

(** File names z5 uses next to the chunks of a dataset:
    include/z5/filesystem/metadata.hxx, include/z5/filesystem/attributes.hxx,
    include/z5/filesystem/handle.hxx (.zarray, .zattrs, .zgroup, zarr.json,
    attributes.json). *)
Definition reserved_names : list string :=
  [".zarray"; ".zattrs"; ".zgroup"; "zarr.json"; "attributes.json"]%string.
