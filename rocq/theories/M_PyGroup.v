(** Model of the python containers: names, groups, creating and requiring datasets,
    visiting, attributes, pickling (src/python/module/z5py/group.py, dataset.py,
    file.py, attribute_manager.py and the bindings src/python/lib/handles.cxx,
    factory.cxx, util.cxx).

    Python exceptions: ValueError is EInvalidArgument (what nanobind makes of
    std::invalid_argument), RuntimeError is ERuntime, KeyError, TypeError,
    AttributeError and ZeroDivisionError are ELogic. *)
From Coq Require Import ZArith Ascii String.
From Verif Require Import M_Base M_Double M_Json M_Mode M_Key M_Blocking M_Metadata M_Fs M_Attributes M_Container.
Import ListNotations.
Local Open Scope list_scope.
Local Open Scope N_scope.

(** * Names *)

(** One component of a path as the operating system follows it.  Simplified: no
    symbolic links, and what comes before ".." exists. *)
Definition step_name (p : path) (c : string) : path :=
  if String.eqb c "" || String.eqb c "." then p
  else if String.eqb c ".." then removelast p
  else p ++ [c].

(** fs::path::is_absolute of a name. *)
Definition is_absolute (name : string) : bool :=
  match name with String c _ => Ascii.eqb c "/"%char | EmptyString => false end.

(** [group.path() / name], include/z5/filesystem/handle.hxx:21,60 and the
    constructors at lines 84-88, 184-188: an absolute right operand replaces the
    left one. *)
Definition join_name (base : path) (name : string) : path :=
  fold_left step_name (split_slash name "") (if is_absolute name then [] else base).

(** name.lstrip('/') *)
Fixpoint lstrip (s : string) : string :=
  match s with
  | String c r => if Ascii.eqb c "/"%char then lstrip r else s
  | EmptyString => EmptyString
  end.

(** * The bindings: handles with names *)

(** .has, src/python/lib/handles.cxx:30-31; elementExists,
    include/z5/filesystem/handle.hxx:59-62. *)
Definition h_has (s : fsys) (h : handle) (name : string) : bool :=
  fs_isdir s (join_name (h_path h) name).

(** .is_sub_group, src/python/lib/handles.cxx:41-43; isSubGroup,
    include/z5/generic/attributes.hxx:107-134 ([M_Attributes.is_sub_group] for a
    name that is not plain). *)
Definition h_is_sub_group (s : fsys) (h : handle) (name : string) : outcome bool :=
  let c := join_name (h_path h) name in
  let! z := is_zarr_group s (h_path h) in
  if negb (fs_exists s c) then Ok false
  else if z then
    if fs_exists s (c ++ ["zarr.json"%string]) then
      let! j := read_doc_or s c "zarr.json" JNull in
      let! nt := jvalue jget_str "node_type" "group"%string j in
      Ok (String.eqb nt "group")
    else Ok (fs_exists s (c ++ [".zgroup"%string]))
  else
    let! o := read_doc s c "attributes.json" in
    match o with
    | None => Ok true
    | Some j => let! b := has_all_n5 j in Ok (negb b)
    end.

(** open_dataset, src/python/lib/factory.cxx:15-19; openDataset,
    include/z5/factory.hxx:59-90 ([M_Container.open_dataset]). *)
Definition h_open_dataset (s : fsys) (h : handle) (name : string) : outcome opened :=
  let c := join_name (h_path h) name in
  let! z := is_zarr_group s (h_path h) in
  let! ka := if z then chunk_config s c else Ok (KeyArgs "." 2 "default") in
  fs_open_dataset s (Handle c (h_mode h)) ka.

(** create_group, src/python/lib/factory.cxx:60-69; createGroup,
    include/z5/factory.hxx:211-230 ([M_Container.create_group]); the handle of the
    new group. *)
Definition h_create_group (h : handle) (name : string) (fmt : Z) : fact handle :=
  let c := join_name (h_path h) name in
  do* z <- freading (fun s => is_zarr_group s (h_path h)) in
  do* _ <- node_create (Handle c (h_mode h)) in
  do* _ <- write_group_metadata c z fmt in
  fret (Ok (Handle c (h_mode h))).

(** create_dataset, src/python/lib/factory.cxx:21-46; createDataset with json
    options, include/z5/factory.hxx:160-190 ([M_Container.create_dataset]).
    Simplified: extents are non-negative numbers that fit (others are a TypeError
    of the binding before anything happens); the options are what parsing
    json.dumps(copts) yields. *)
Definition h_create_dataset (h : handle) (name dtype_name : string) (sh ch : shape)
    (comp_name : string) (copts : list (string * json)) (fill : dbl) (delim : string) (fmt : Z)
    (enc : string) (shard : shape) : fact opened :=
  let c := join_name (h_path h) name in
  do* o <- fret (json_options copts []) in
  do* z <- freading (fun s => is_zarr_group s (h_path h)) in
  do* m <- fret (create_metadata dtype_name sh ch z comp_name o fill delim fmt enc shard) in
  fs_create_dataset (Handle c (h_mode h)) (KeyArgs delim fmt enc) m.

(** * Python objects *)

(** Group (and File), src/python/module/z5py/group.py:38-45.  Simplified: the
    parent is left out; the root file is given to [py_unpickle] separately. *)
Record pygroup := PyGroup {
  pg_handle : handle;
  pg_name : string;
  pg_sep : string;               (* _dimension_separator *)
  pg_format : Z                  (* _zarr_format *)
}.

(** Dataset, src/python/module/z5py/dataset.py:84-90; without n_threads. *)
Record pydataset := PyDataset { pd_impl : opened; pd_name : string }.

(** What [[]] returns, src/python/module/z5py/group.py:84-85. *)
Inductive pyobj := PGroup (g : pygroup) | PDataset (d : pydataset).

(** self._name + '/' + name, src/python/module/z5py/group.py:93,168,191,
    dataset.py:215,339,349. *)
Definition sub_name (g : pygroup) (name : string) : string := (pg_name g ++ "/" ++ name)%string.

(** Group.__contains__, src/python/module/z5py/group.py:63-64. *)
Definition py_contains (s : fsys) (g : pygroup) (name : string) : bool :=
  h_has s (pg_handle g) (lstrip name).

(** Dataset._open_dataset, src/python/module/z5py/dataset.py:344-349. *)
Definition py_open_dataset (s : fsys) (g : pygroup) (name : string) : outcome pydataset :=
  let! o := h_open_dataset s (pg_handle g) name in
  Ok (PyDataset o (sub_name g name)).

(** The sub-group object, src/python/module/z5py/group.py:92-94 (and 168-169,
    191-192): self._handle_factory(self._handle, name) is the handle constructor. *)
Definition py_subgroup (g : pygroup) (key name : string) : pygroup :=
  PyGroup (Handle (join_name (h_path (pg_handle g)) key) (h_mode (pg_handle g)))
          (sub_name g name) (pg_sep g) (pg_format g).

(** Group.__getitem__, src/python/module/z5py/group.py:77-96. *)
Definition py_getitem (s : fsys) (g : pygroup) (name : string) : outcome pyobj :=
  if negb (py_contains s g name) then Throw ELogic
  else
    let! b := h_is_sub_group s (pg_handle g) (lstrip name) in
    if b then Ok (PGroup (py_subgroup g (lstrip name) name))
    else let! d := py_open_dataset s g (lstrip name) in Ok (PDataset d).

(** Group.__delitem__, src/python/module/z5py/group.py:66-75; remove_dataset,
    src/python/lib/util.cxx:39-41 and include/z5/util/functions.hxx:64-84, for one
    thread.  Simplified: the chunk files vanish together with the directory of the
    dataset ([M_Functions.remove_dataset] has the loop over them). *)
Definition py_delitem (g : pygroup) (name : string) : fact unit := fun s =>
  (if negb (can_write (h_mode (pg_handle g))) then fret (Throw EInvalidArgument)
   else if negb (py_contains s g name) then fret (Throw ELogic)
   else
     do* b <- freading (fun s => h_is_sub_group s (pg_handle g) (lstrip name)) in
     if b then node_remove (pg_handle (py_subgroup g (lstrip name) name))
     else
       do* x <- freading (fun s => py_getitem s g name) in
       match x with
       | PDataset d => node_remove (Handle (op_path (pd_impl d)) (op_mode (pd_impl d)))
       | PGroup _ => fret (Throw ELogic)
       end) s.

(** Group.create_group, src/python/module/z5py/group.py:151-169. *)
Definition py_create_group (g : pygroup) (name : string) : fact pygroup := fun s =>
  (if negb (can_write (h_mode (pg_handle g))) then fret (Throw EInvalidArgument)
   else if py_contains s g name then fret (Throw ELogic)
   else
     do* h <- h_create_group (pg_handle g) name (pg_format g) in
     fret (Ok (PyGroup h (sub_name g name) (pg_sep g) (pg_format g)))) s.

(** Group.require_group, src/python/module/z5py/group.py:171-192. *)
Definition py_require_group (g : pygroup) (name : string) : fact pygroup := fun s =>
  (if py_contains s g name then
     do* b <- freading (fun s => h_is_sub_group s (pg_handle g) name) in
     if b then fret (Ok (py_subgroup g name name)) else fret (Throw ELogic)
   else if negb (can_write (h_mode (pg_handle g))) then fret (Throw EInvalidArgument)
   else
     do* h <- h_create_group (pg_handle g) name (pg_format g) in
     fret (Ok (PyGroup h (sub_name g name) (pg_sep g) (pg_format g)))) s.

(** * Creating datasets *)

(** The arguments of create_dataset, src/python/module/z5py/group.py:198-203.
    Data types by their numpy names; [a_data] is the shape and type of the array
    given as data.  Simplified: [ds[:] = data], dataset.py:340-341, is left out
    (see [M_Python]). *)
Record ds_args := DsArgs {
  a_shape : option shape;
  a_dtype : option string;
  a_data : option (shape * string);
  a_chunks : option shape;
  a_comp : option string;
  a_fill : dbl;
  a_shards : option shape;
  a_enc : string;
  a_opts : list (string * json)      (* compression_options: distinct keys *)
}.

(** tuple(shape) != tuple(data.shape), src/python/module/z5py/dataset.py:216,220,267. *)
Fixpoint shape_eqb (a b : shape) : bool :=
  match a, b with
  | [], [] => true
  | x :: a, y :: b => (x =? y) && shape_eqb a b
  | _, _ => false
  end.

(** Shape and type, src/python/module/z5py/dataset.py:261-281. *)
Definition shape_and_dtype (a : ds_args) : outcome (shape * string) :=
  match a_data a with
  | Some (dsh, dty) =>
      let! sh := match a_shape a with
                 | None => Ok dsh
                 | Some sh => if shape_eqb sh dsh then Ok dsh else Throw EInvalidArgument
                 end in
      let! ty := match a_dtype a with
                 | None => Ok dty
                 | Some ty => if String.eqb ty dty then Ok dty else Throw EInvalidArgument
                 end in
      Ok (sh, ty)
  | None =>
      match a_shape a, a_dtype a with
      | Some sh, Some ty => Ok (sh, ty)
      | _, _ => Throw ELogic
      end
  end.

(** The largest r < 2^bits with r^n <= t, digit by digit. *)
Fixpoint nroot (bits : nat) (n t r : N) : N :=
  match bits with
  | O => r
  | S b => let r' := r + 2 ^ N.of_nat b in nroot b n t (if r' ^ n <=? t then r' else r)
  end.

(** int(round(262144 ** (1. / len(shape)))), src/python/module/z5py/shape_utils.py:
    122-123: the integer next to 2^(18/n) (never half way between two integers).
    Simplified: computed exactly. *)
Definition default_dim (n : N) : N := (nroot 20 n (2 ^ (18 + n)) 0 + 1) / 2.

(** get_default_chunks, src/python/module/z5py/shape_utils.py:109-124. *)
Definition default_chunks (sh : shape) : outcome shape :=
  match sh with
  | [] => Throw ELogic
  | _ => Ok (map (fun x => N.min (default_dim (lenN sh)) x) sh)
  end.

(** Chunks, src/python/module/z5py/dataset.py:283-293. *)
Definition chunks_for (sh : shape) (chunks : option shape) : outcome shape :=
  let! ch := match chunks with Some c => Ok c | None => default_chunks sh end in
  if negb (lenN ch =? lenN sh) then Throw ERuntime else Ok (map2 N.min ch sh).

(** _dtype_dict, src/python/module/z5py/dataset.py:58-67. *)
Definition py_dtypes : list string :=
  ["uint8"; "uint16"; "uint32"; "uint64"; "int8"; "int16"; "int32"; "int64"; "float32"; "float64"]%string.

(** Which of the three formats: n5, zarr v2, zarr v3. *)
Inductive py_format := FN5 | FZarr2 | FZarr3.
(** The case distinctions at src/python/module/z5py/dataset.py:299,302,327. *)
Definition format_of (is_zarr : bool) (fmt : Z) : py_format :=
  if is_zarr then if (fmt =? 3)%Z then FZarr3 else FZarr2 else FN5.

(** compressors_n5, compressors_zarr, compressors_zarr_v3,
    src/python/module/z5py/dataset.py:43-47,69-82.  Simplified: z5 is compiled with
    all libraries. *)
Definition py_compressors (f : py_format) : list string :=
  (match f with
  | FN5 => ["raw"; "blosc"; "gzip"; "bzip2"; "xz"; "lz4"; "zstd"]
  | FZarr2 => ["raw"; "blosc"; "zlib"; "bzip2"; "gzip"; "zstd"]
  | FZarr3 => ["raw"; "gzip"; "blosc"; "zstd"]
  end)%string.
(** zarr_default_compressor, n5_default_compressor, zarr_v3_default_compressor,
    src/python/module/z5py/dataset.py:72,77,82. *)
Definition py_default_compressor (f : py_format) : string :=
  (match f with FN5 => "gzip" | _ => "blosc" end)%string.

(** The default options of _to_n5_compression_options,
    _to_zarr_compression_options, _to_zarr_v3_compression_options,
    src/python/module/z5py/dataset.py:109-194. *)
Definition py_default_opts (f : py_format) (comp : string) : option (list (string * json)) :=
  let lv z := ("level"%string, JInt z) in
  match f with
  | FN5 => sfind comp [
      ("gzip", [lv 5%Z]); ("bzip2", [lv 5%Z]); ("raw", []); ("xz", [lv 6%Z]); ("lz4", [lv 6%Z]);
      ("blosc", [("codec", JStr "lz4"); ("clevel", JInt 5); ("shuffle", JInt 1); ("blocksize", JInt 0); ("nthreads", JInt 1)]);
      ("zstd", [lv 3%Z])]
  | FZarr2 => sfind comp [
      ("blosc", [("codec", JStr "lz4"); ("clevel", JInt 5); ("shuffle", JInt 1); ("blocksize", JInt 0)]);
      ("zlib", [("id", JStr "zlib"); lv 5%Z]); ("gzip", [("id", JStr "gzip"); lv 5%Z]);
      ("bzip2", [lv 5%Z]); ("lz4", [lv 6%Z]); ("zstd", [lv 3%Z]); ("raw", [])]
  | FZarr3 => sfind comp [
      ("blosc", [("codec", JStr "lz4"); ("level", JInt 5); ("shuffle", JInt 1); ("blocksize", JInt 0)]);
      ("gzip", [lv 5%Z; ("useZlib", JBool false)]); ("zstd", [lv 3%Z]); ("raw", [])]
  end%string.

(** The options handed to the C++ code, ibid.: unknown names are an error, the
    others update the default values. *)
Definition py_copts (f : py_format) (comp : string) (opts : list (string * json)) : outcome (list (string * json)) :=
  match py_default_opts f comp with
  | None => Throw ERuntime
  | Some d =>
      if existsb (fun kv => negb (existsb (fun e => String.eqb (fst e) (fst kv)) d)) opts then Throw ERuntime
      else Ok (map (fun e => (fst e, match sfind (fst e) opts with Some v => v | None => snd e end)) d)
  end.

(** Dataset._create_dataset, src/python/module/z5py/dataset.py:249-342. *)
Definition py_create_in (g : pygroup) (name : string) (a : ds_args) : fact pydataset :=
  do* st <- fret (shape_and_dtype a) in
  let (sh, ty) := st : shape * string in
  do* ch <- fret (chunks_for sh (a_chunks a)) in
  do* z <- freading (fun s => is_zarr_group s (h_path (pg_handle g))) in
  let f := format_of z (pg_format g) in
  do* _ <- fret (if existsb (String.eqb ty) py_dtypes then Ok tt else Throw EInvalidArgument) in
  do* _ <- fret (match a_shards a, f with
                 | None, _ | _, FZarr3 => Ok tt
                 | Some _, _ => Throw EInvalidArgument
                 end) in
  let comp := match a_comp a with Some c => c | None => py_default_compressor f end in
  do* _ <- fret (if existsb (String.eqb comp) (py_compressors f) then Ok tt else Throw EInvalidArgument) in
  do* copts <- fret (py_copts f comp (a_opts a)) in
  do* o <- (match f with
            | FZarr3 =>
                h_create_dataset (pg_handle g) name ty sh ch comp copts (a_fill a)
                  (if String.eqb (a_enc a) "v2" then "." else "/")%string 3 (a_enc a)
                  (match a_shards a with Some x => x | None => [] end)
            | _ =>
                h_create_dataset (pg_handle g) name ty sh ch comp copts (a_fill a) (pg_sep g) 2 "default" []
            end) in
  fret (Ok (PyDataset o (sub_name g name))).

(** [for part in parts: group = group.require_group(part)],
    src/python/module/z5py/group.py:242-244. *)
Fixpoint py_require_groups (g : pygroup) (parts : list string) : fact pygroup :=
  match parts with
  | [] => fret (Ok g)
  | x :: r => do* g' <- py_require_group g x in py_require_groups g' r
  end.

(** The checks of Group.create_dataset, src/python/module/z5py/group.py:234-237. *)
Definition py_may_create (g : pygroup) (name : string) : fact unit := fun s =>
  (if negb (can_write (h_mode (pg_handle g))) then fret (Throw EInvalidArgument)
   else if py_contains s g name then fret (Throw ELogic)
   else fret (Ok tt)) s.

(** Group.create_dataset, src/python/module/z5py/group.py:198-259.  The recursive
    call has a name without "/", so it goes one level deep. *)
Definition py_create_dataset (g : pygroup) (name : string) (a : ds_args) : fact pydataset :=
  do* _ <- py_may_create g name in
  let parts := split_slash (lstrip name) "" in
  match removelast parts with
  | [] => py_create_in g name a
  | front =>
      do* g' <- py_require_groups g front in
      do* _ <- py_may_create g' (last parts ""%string) in
      py_create_in g' (last parts ""%string) a
  end.

(** np.dtype(dtype) != ds.dtype: the name that the dtype property reports,
    src/python/lib/dataset.cxx:236. *)
Definition dtype_name_of (d : dtype) : string :=
  (match d with
  | DT_int8 => "int8" | DT_int16 => "int16" | DT_int32 => "int32" | DT_int64 => "int64"
  | DT_uint8 => "uint8" | DT_uint16 => "uint16" | DT_uint32 => "uint32" | DT_uint64 => "uint64"
  | DT_float32 => "float32" | DT_float64 => "float64"
  | DT_complex64 => "complex64" | DT_complex128 => "complex128" | DT_complex256 => "complex256"
  end)%string.

(** Dataset._require_dataset, src/python/module/z5py/dataset.py:199-247 (called by
    Group.require_dataset, group.py:261-287). *)
Definition py_require_dataset (g : pygroup) (name : string) (sh : shape) (a : ds_args) : fact pydataset := fun s =>
  (if h_has s (pg_handle g) name then
     freading (fun s =>
       let! b := h_is_sub_group s (pg_handle g) name in
       if b then Throw ELogic
       else
         let! d := py_open_dataset s g name in
         if negb (shape_eqb sh (op_shape (pd_impl d))) then Throw ELogic
         else if negb (match a_chunks a with None => true | Some c => shape_eqb c (op_chunks (pd_impl d)) end) then Throw ELogic
         else if negb (match a_dtype a with None => true | Some t => String.eqb t (dtype_name_of (op_dtype (pd_impl d))) end) then Throw ELogic
         else Ok d)
   else if negb (can_write (h_mode (pg_handle g))) then fret (Throw EInvalidArgument)
   else py_create_in g name (DsArgs (Some sh) (a_dtype a) (a_data a) (a_chunks a) (a_comp a) (a_fill a)
                               (a_shards a) (a_enc a) (a_opts a))) s.

(** * What a dataset says about its compression *)

(** Compressor::type(). *)
Definition codec_type (c : codec_config) : compressor :=
  match c with
  | Cfg_raw => C_raw | Cfg_blosc _ _ _ _ _ => C_blosc | Cfg_zlib _ _ => C_zlib | Cfg_bzip2 _ => C_bzip2
  | Cfg_lz4 _ => C_lz4 | Cfg_xz _ => C_xz | Cfg_zstd _ => C_zstd
  end.

(** Dataset.compression, src/python/module/z5py/dataset.py:412-416; getCompressor,
    include/z5/generic/dataset.hxx:153-157, sharded_dataset.hxx:140-142; the
    non-const operator[] yields "" for xz in zarr. *)
Definition py_compression (o : opened) : string :=
  match (if k_zarr (op_keys o) then compressor_to_zarr else compressor_to_n5) (codec_type (op_codec o)) with
  | Some n => n
  | None => ""%string
  end.

(** getOptions of the compressors: compression/blosc_compressor.hxx:69-75,
    bzip2_compressor.hxx:105-107, lz4_compressor.hxx:61-63, raw_compressor.hxx:34-35,
    xz_compressor.hxx:137-139, zlib_compressor.hxx:220-225,
    zstd_compressor.hxx:59-61. *)
Definition codec_options (c : codec_config) : options :=
  (match c with
  | Cfg_raw => []
  | Cfg_blosc l s cn bs nt =>
      [("codec", OStr cn); ("shuffle", OInt s); ("level", OInt l); ("blocksize", OInt bs); ("nthreads", OInt nt)]
  | Cfg_zlib l u => [("level", OInt l); ("useZlib", OBool u)]
  | Cfg_bzip2 l | Cfg_lz4 l | Cfg_xz l | Cfg_zstd l => [("level", OInt l)]
  end)%string.

(** Dataset.compression_opts, src/python/module/z5py/dataset.py:418-429, with
    compressionTypeToJson, include/z5/types/types.hxx:572-586, into a
    default-constructed value: without any options it stays null, json.loads
    yields None, and None.pop is an AttributeError. *)
Definition py_compression_opts (o : opened) : outcome (list (string * json)) :=
  match codec_options (op_codec o) with
  | [] => Throw ELogic
  | l => Ok (map (fun kv => (fst kv, match snd kv with OInt z => JInt z | OBool b => JBool b | OStr t => JStr t end))
               (filter (fun kv => negb (String.eqb (fst kv) "useZlib")) l))
  end.

(** * Visiting *)

(** A path as text, fs::path::generic_string. *)
Fixpoint join_path (p : path) : string :=
  match p with
  | [] => ""%string
  | [a] => a
  | a :: r => (a ++ "/" ++ join_path r)%string
  end.

(** relativePath, include/z5/filesystem/factory.hxx:84-90: fs::relative(to, from),
    as components. *)
Fixpoint relative (from to : path) : path :=
  match from, to with
  | a :: r, b :: t => if String.eqb a b then relative r t else map (fun _ => ".."%string) from ++ to
  | _, _ => map (fun _ => ".."%string) from ++ to
  end.
(** .relative_path, src/python/lib/handles.cxx:44-52. *)
Definition relative_path (from to : path) : string :=
  match relative from to with [] => "."%string | r => join_path r end.

(** obj._handle, src/python/module/z5py/group.py:320. *)
Definition obj_path (x : pyobj) : path :=
  match x with PGroup g => h_path (pg_handle g) | PDataset d => op_path (pd_impl d) end.

Section Visit.
  (** Handle::keys, include/z5/filesystem/handle.hxx:124-131: the names of the
      sub-directories, in the order of fs::directory_iterator. *)
  Variable ls : path -> list string.
  (** The callable: given the calls made so far, what it returns for (name, obj);
      None continues.  Simplified: it does not modify the container. *)
  Variable B : Type.
  Variable func : list (string * pyobj) -> string -> pyobj -> option B.

  (** The loop over the names of a group; [go] is the recursive call. *)
  Fixpoint visit_names (s : fsys) (root : path) (g : pygroup)
      (go : pygroup -> list (string * pyobj) -> outcome (list (string * pyobj) * option B))
      (names : list string) (calls : list (string * pyobj)) : outcome (list (string * pyobj) * option B) :=
    match names with
    | [] => Ok (calls, None)
    | n :: rest =>
        let! x := py_getitem s g n in
        let name := relative_path root (obj_path x) in
        let calls1 := calls ++ [(name, x)] in
        match func calls name x with
        | Some b => Ok (calls1, Some b)
        | None =>
            match x with
            | PDataset _ => visit_names s root g go rest calls1
            | PGroup sub =>
                let! r := go sub calls1 in
                match r with
                | (calls2, Some b) => Ok (calls2, Some b)
                | (calls2, None) => visit_names s root g go rest calls2
                end
            end
        end
    end.

  (** Group.visititems, src/python/module/z5py/group.py:289-329; items() of
      collections.abc.Mapping looks every name up when it gets to it.  [depth]
      bounds the recursion; deeper than that is a RecursionError. *)
  Fixpoint py_visititems (depth : nat) (s : fsys) (root : path) (g : pygroup) (calls : list (string * pyobj))
      : outcome (list (string * pyobj) * option B) :=
    match depth with
    | O => Throw ERuntime
    | S d => visit_names s root g (py_visititems d s root) (ls (h_path (pg_handle g))) calls
    end.
End Visit.

(** * Attributes *)

(** AttributeManager, src/python/module/z5py/attribute_manager.py:66-113, on the
    handle [k], [m], [p].  Simplified: values are json values as json.dumps and
    nlohmann's parser exchange them, keys are texts, no custom encoder. *)
Record attr_manager := AttrManager { am_kind : hkind; am_mode : mode; am_path : path }.

(** _read_attributes, lines 96-101, as the entries of the dict. *)
Definition py_attrs (s : fsys) (a : attr_manager) : outcome (list (string * json)) :=
  let! j := read_attributes (am_kind a) s (am_path a) in
  match j with
  | JNull => Ok []
  | JObj l => Ok l
  | _ => Throw ELogic
  end.
(** __getitem__, lines 78-80. *)
Definition py_attr_get (s : fsys) (a : attr_manager) (k : string) : outcome json :=
  let! l := py_attrs s a in
  match jlookup k l with Some v => Ok v | None => Throw ELogic end.
(** __contains__ of Mapping: whether __getitem__ finds it. *)
Definition py_attr_in (s : fsys) (a : attr_manager) (k : string) : outcome bool :=
  let! l := py_attrs s a in
  Ok (match jlookup k l with Some _ => true | None => false end).
(** update, lines 88-94, and __setitem__, lines 82-83, with _write_attributes,
    lines 103-105. *)
Definition py_attr_update (a : attr_manager) (l : list (string * json)) : fact unit :=
  write_attributes (am_kind a) (am_mode a) (am_path a) (JObj l).
Definition py_attr_set (a : attr_manager) (k : string) (v : json) : fact unit := py_attr_update a [(k, v)].
(** __delitem__, lines 85-86. *)
Definition py_attr_del (a : attr_manager) (k : string) : fact unit :=
  remove_attribute (am_kind a) (am_mode a) (am_path a) k.
(** __iter__ and __len__, lines 107-113. *)
Definition py_attr_keys (s : fsys) (a : attr_manager) : outcome (list string) :=
  let! l := py_attrs s a in Ok (map fst l).
(** pop and clear of MutableMapping. *)
Definition py_attr_pop (a : attr_manager) (k : string) : fact json :=
  do* v <- freading (fun s => py_attr_get s a k) in
  do* _ <- py_attr_del a k in
  fret (Ok v).

(** * Pickling *)

(** name.strip('/') is both, src/python/module/z5py/dataset.py:29. *)
Fixpoint rstrip (s : string) : string :=
  match s with
  | EmptyString => EmptyString
  | String c r => match rstrip r with
                  | EmptyString => if Ascii.eqb c "/"%char then EmptyString else String c EmptyString
                  | r' => String c r'
                  end
  end.

(** _navigate, src/python/module/z5py/dataset.py:22-33; a dataset has no names to
    look up ([obj[part]] on a Dataset is an indexing error). *)
Fixpoint navigate_parts (s : fsys) (x : pyobj) (parts : list string) : outcome pyobj :=
  match parts with
  | [] => Ok x
  | n :: r => match x with
              | PGroup g => let! y := py_getitem s g n in navigate_parts s y r
              | PDataset _ => Throw ELogic
              end
  end.
(** _navigate, src/python/module/z5py/dataset.py:22-33. *)
Definition py_navigate (s : fsys) (f : pygroup) (name : string) : outcome pyobj :=
  match rstrip (lstrip name) with
  | EmptyString => Ok (PGroup f)
  | rel => navigate_parts s (PGroup f) (split_slash rel "")
  end.

(** File.__reduce__ and _unpickle_file, src/python/module/z5py/file.py:31-44,
    136-139: path, mode and separator are kept, the format is read again.
    Simplified: a format that is no number counts as 2 (as it does wherever it is
    used, group.py and dataset.py compare it with 3). *)
Definition py_unpickle_file (s : fsys) (f : pygroup) : outcome pygroup :=
  let! z := is_zarr_group s (h_path (pg_handle f)) in
  let fmt := if z then
               match read_group_metadata s (h_path (pg_handle f)) with
               | Ok md => match jfind "zarr_format" md with
                          | Some v =>
                              if jeq_int v 3 then 3%Z
                              else match v with JInt x => x | JUInt x => Z.of_N x | _ => 2%Z end
                          | None => 2%Z
                          end
               | _ => 2%Z
               end
             else 2%Z in
  Ok (PyGroup (pg_handle f) "" (pg_sep f) fmt).

(** Group._name and Dataset._name, src/python/module/z5py/group.py:43, dataset.py:90. *)
Definition obj_name (x : pyobj) : string :=
  match x with PGroup g => pg_name g | PDataset d => pd_name d end.

(** pickle.loads(pickle.dumps(x)) for an object [x] of the file [f]: Group.__reduce__,
    src/python/module/z5py/group.py:47-49, Dataset.__reduce__, dataset.py:92-96,
    and _unpickle_group, _unpickle_dataset. *)
Definition py_unpickle (s : fsys) (f : pygroup) (x : pyobj) : outcome pyobj :=
  let! f' := py_unpickle_file s f in
  py_navigate s f' (obj_name x).
