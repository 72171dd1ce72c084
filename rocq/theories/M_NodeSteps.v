(** The calls that make, open and remove nodes of a container as sequences of accesses to
    the file system, and several clients (threads or processes) that make such calls and
    calls on attributes.  Nothing in include/z5/factory.hxx, include/z5/filesystem/factory.hxx
    and include/z5/filesystem/handle.hxx orders accesses of different calls. *)
From Coq Require Import ZArith String.
From Verif Require Import M_Base M_Double M_Json M_Mode M_Blocking M_Metadata M_Fs M_Attributes M_Container M_AttrSteps.
Import ListNotations.
Local Open Scope list_scope.

(** What a call returns: nothing, attributes, a dataset object, yes or no. *)
Inductive answer :=
| Nothing
| Attrs (j : json)
| Object (d : opened)
| Whether (b : bool).

(** Code of a call: it returns, or it accesses the file system once. *)
Inductive ncode :=
| NRet (o : outcome answer)
| NAct (f : fsys -> fsys * ncode).

(** Computation on the call's own data. *)
Definition nlift {A} (o : outcome A) (k : A -> ncode) : ncode :=
  match o with
  | Ok a => k a
  | Throw e => NRet (Throw e)
  | UB => NRet UB
  end.
(** fs::exists, fs::is_directory *)
Definition nexists (q : path) (k : bool -> ncode) : ncode := NAct (fun s => (s, k (fs_exists s q))).
Definition nisdir (q : path) (k : bool -> ncode) : ncode := NAct (fun s => (s, k (fs_isdir s q))).

(** isZarrGroup, include/z5/filesystem/handle.hxx:42-48. *)
Definition nsteps_is_zarr (p : path) (cont : bool -> ncode) : ncode :=
  nexists p (fun e =>
  if negb e then NRet (Throw ERuntime)
  else nexists (p ++ [".zgroup"%string]) (fun a => if a then cont true else nexists (p ++ ["zarr.json"%string]) cont)).

(** fs::create_directories: the components of the path are looked at, then the missing ones
    are made; a directory that somebody else has made meanwhile is no error. *)
Fixpoint nsteps_look (l : list path) (k : ncode) : ncode :=
  match l with
  | [] => k
  | q :: r => NAct (fun s => (s, if fs_exists s q && negb (fs_isdir s q) then NRet (Throw EFilesystem) else nsteps_look r k))
  end.
Fixpoint nsteps_make (l : list path) (k : ncode) : ncode :=
  match l with
  | [] => k
  | q :: r => NAct (fun s =>
      match s q with
      | None => ((fun x => if path_eqb x q then Some NDir else s x), nsteps_make r k)
      | Some NDir => (s, nsteps_make r k)
      | Some _ => (s, NRet (Throw EFilesystem))
      end)
  end.
Definition nsteps_mkdirs (p : path) (k : ncode) : ncode := nsteps_look (prefixes p) (nsteps_make (prefixes p) k).

(** create() of groups and datasets, include/z5/filesystem/handle.hxx:101-110, 211-222, and
    of files, lines 153-162: whether there is something is asked first. *)
Definition nsteps_create (allowed : bool) (p : path) (k : ncode) : ncode :=
  if negb allowed then NRet (Throw EInvalidArgument)
  else nexists p (fun e => if e then NRet (Throw EInvalidArgument) else nsteps_mkdirs p k).

(** JsonIO::read, include/z5/filesystem/attributes.hxx:33-42, see [steps_read]. *)
Definition nsteps_read (p : path) (name : string) (cont : option json -> ncode) : ncode :=
  nexists (p ++ [name]) (fun e =>
  if negb e then cont None
  else NAct (fun s => (s, match s (p ++ [name]) with Some (NDoc j) => cont (Some j) | _ => NRet (Throw EJson) end))).
(** Parsing without asking, include/z5/filesystem/metadata.hxx:18-22 and
    include/z5/factory.hxx:24-27, 45-48. *)
Definition nsteps_parse (p : path) (name : string) (cont : json -> ncode) : ncode :=
  NAct (fun s => (s, nlift (parse_doc s p name) cont)).
(** JsonIO::writePretty, include/z5/filesystem/attributes.hxx:52-56, see [steps_write]. *)
Definition nsteps_write (p : path) (name : string) (j : json) (k : ncode) : ncode :=
  NAct (fun s =>
    if fs_isdir s p && negb (fs_isdir s (p ++ [name]))
    then ((fun q => if path_eqb q (p ++ [name]) then Some (NBlob []) else s q),
          NAct (fun s => ((fun q => if path_eqb q (p ++ [name]) then Some (NDoc (reparse j)) else s q), k)))
    else (s, k)).

(** writeV3GroupMetadata, include/z5/generic/metadata.hxx:16-26. *)
Definition nsteps_v3_group (p : path) (k : ncode) : ncode :=
  nsteps_read p "zarr.json" (fun o =>
  let j0 := match o with Some j => j | None => JNull end in
  nlift (let! j1 := jput "zarr_format" (JInt 3) j0 in
         let! j2 := jput "node_type" (JStr "group") j1 in
         match jfind "attributes" j2 with
         | Some _ => Ok j2
         | None => jput "attributes" (JObj []) j2
         end) (fun j => nsteps_write p "zarr.json" j k)).
(** writeFileMetadata, include/z5/generic/metadata.hxx:29-47. *)
Definition nsteps_file_metadata (p : path) (is_zarr : bool) (fmt : Z) (k : ncode) : ncode :=
  if is_zarr && (fmt =? 3)%Z then nsteps_v3_group p k
  else if is_zarr then nsteps_write p ".zgroup" (JObj [("zarr_format"%string, JInt fmt)]) k
  else nsteps_read p "attributes.json" (fun o =>
       nlift (jput "n5" (JStr n5_format) (match o with Some j => j | None => JNull end))
         (fun j => nsteps_write p "attributes.json" j k)).
(** writeGroupMetadata, include/z5/generic/metadata.hxx:50-62. *)
Definition nsteps_group_metadata (p : path) (is_zarr : bool) (fmt : Z) (k : ncode) : ncode :=
  if is_zarr && (fmt =? 3)%Z then nsteps_v3_group p k
  else if is_zarr then nsteps_write p ".zgroup" (JObj [("zarr_format"%string, JInt fmt)]) k
  else k.
(** writeDatasetMetadata, include/z5/generic/metadata.hxx:65-82. *)
Definition nsteps_dataset_metadata (p : path) (m : metadata) (k : ncode) : ncode :=
  if md_zarr m && (md_format m =? 3)%Z then
    nsteps_read p "zarr.json" (fun ex =>
    nlift (let! j := to_json m in
           match ex with
           | Some e => match jfind "attributes" e with
                       | Some a => jput "attributes" a j
                       | None => Ok j
                       end
           | None => Ok j
           end) (fun j => nsteps_write p "zarr.json" j k))
  else nlift (to_json m) (fun j => nsteps_write p (if md_zarr m then ".zarray" else "attributes.json") j k).

(** filesystem::createDataset, include/z5/filesystem/factory.hxx:57-65. *)
Definition nsteps_create_dataset (h : handle) (ka : key_args) (m : metadata) : ncode :=
  nsteps_create (negb (is_mode_r (h_mode h))) (h_path h)
    (nsteps_dataset_metadata (h_path h) m (nlift (make_dataset h ka m) (fun d => NRet (Ok (Object d))))).

(** getZarrChunkConfig, include/z5/factory.hxx:15-56: what is found in the documents. *)
Definition keys_v3 (j : json) : outcome key_args :=
  match jfind "chunk_key_encoding" j with
  | Some cke =>
      let! enc := jvalue jget_str "name" "default"%string cke in
      let dflt := (if String.eqb enc "v2" then "." else "/")%string in
      let! delim :=
        match jfind "configuration" cke with
        | Some cfg => match jfind "separator" cfg with
                      | Some v => jget_str v
                      | None => Ok dflt
                      end
        | None => Ok dflt
        end in
      Ok (KeyArgs delim 3 enc)
  | None => Ok (KeyArgs "/" 3 "default")
  end.
Definition keys_v2 (j : json) : outcome key_args :=
  let! delim := match jfind "dimension_separator" j with
                | Some v => jget_str v
                | None => Ok "."%string
                end in
  Ok (KeyArgs delim 2 "default").
Definition nsteps_chunk_config (p : path) (cont : key_args -> ncode) : ncode :=
  nexists (p ++ ["zarr.json"%string]) (fun v3 =>
  if v3 then nsteps_parse p "zarr.json" (fun j => nlift (keys_v3 j) cont)
  else nexists (p ++ [".zarray"%string]) (fun v2 =>
       if v2 then nsteps_parse p ".zarray" (fun j => nlift (keys_v2 j) cont)
       else cont (KeyArgs "." 2 "default"))).

(** readMetadata with getMetadataPath, include/z5/filesystem/metadata.hxx:24-41, 92-98. *)
Definition nsteps_metadata (p : path) (cont : metadata -> ncode) : ncode :=
  nexists (p ++ [".zarray"%string]) (fun has_zarr =>
  nexists (p ++ ["zarr.json"%string]) (fun has_v3 =>
  nexists (p ++ ["attributes.json"%string]) (fun has_n5 =>
  if (has_zarr || has_v3) && has_n5 then NRet (Throw ERuntime)
  else if negb has_zarr && negb has_v3 && negb has_n5 then NRet (Throw ERuntime)
  else nsteps_parse p (if has_v3 then "zarr.json" else if has_zarr then ".zarray" else "attributes.json")%string
         (fun j => nlift (from_json j (has_zarr || has_v3)) cont)))).

(** openDataset, include/z5/factory.hxx:59-90 and include/z5/filesystem/factory.hxx:43-54. *)
Definition nsteps_open_dataset (root : handle) (key : path) : ncode :=
  let h := Handle (h_path root ++ key) (h_mode root) in
  let go ka := nexists (h_path h) (fun e =>
    if negb e then NRet (Throw ERuntime)
    else nsteps_metadata (h_path h) (fun m => nlift (make_dataset h ka m) (fun d => NRet (Ok (Object d))))) in
  nsteps_is_zarr (h_path root) (fun z => if z then nsteps_chunk_config (h_path h) go else go (KeyArgs "." 2 "default")).

(** remove() of files, groups and datasets, include/z5/filesystem/handle.hxx:112-122,
    164-173, 224-233.  Simplified: fs::remove_all is one access here, but see [ncrash]. *)
Definition nsteps_remove (h : handle) : ncode :=
  if negb (can_write (h_mode h)) then NRet (Throw EInvalidArgument)
  else nexists (h_path h) (fun e =>
       if negb e then NRet (Throw EInvalidArgument)
       else NAct (fun s => ((fun q => if below (h_path h) q then None else s q), NRet (Ok Nothing)))).

(** The calls on attributes ([M_AttrSteps]) among the others. *)
Definition attr_answer (o : outcome json) : outcome answer :=
  match o with Ok j => Ok (Attrs j) | Throw e => Throw e | UB => UB end.
Fixpoint of_acode (c : acode) : ncode :=
  match c with
  | ARet o => NRet (attr_answer o)
  | AAct f => NAct (fun s => let (s', c') := f s in (s', of_acode c'))
  end.

(** The calls: attributes; createFile, createGroup, createDataset (from arguments, from
    metadata); openDataset; remove(); exists(); in(). *)
Inductive ncall :=
| DoAttr (c : acall)
| DoFile (h : handle) (is_zarr : bool) (fmt : Z)
| DoGroup (root : handle) (key : path) (fmt : Z)
| DoDataset (root : handle) (key : path) (dtype_name : string) (sh ch : shape) (comp_name : string) (o : options)
    (fill : dbl) (delim : string) (fmt : Z) (enc : string) (shard : shape)
| DoDatasetMd (root : handle) (key : path) (m : metadata)
| DoOpen (root : handle) (key : path)
| DoRemove (h : handle)
| DoExists (h : handle)
| DoIn (h : handle) (key : path).

(** include/z5/factory.hxx:59-230. *)
Definition steps_of_ncall (c : ncall) : ncode :=
  match c with
  | DoAttr c => of_acode (steps_of_call c)
  | DoFile h z fmt =>
      nsteps_create (can_create (h_mode h)) (h_path h) (nsteps_file_metadata (h_path h) z fmt (NRet (Ok Nothing)))
  | DoGroup root key fmt =>
      nsteps_is_zarr (h_path root) (fun z =>
      nsteps_create (negb (is_mode_r (h_mode root))) (h_path root ++ key)
        (nsteps_group_metadata (h_path root ++ key) z fmt (NRet (Ok Nothing))))
  | DoDataset root key dn sh ch cn o fill delim fmt enc shard =>
      nsteps_is_zarr (h_path root) (fun z =>
      nlift (create_metadata dn sh ch z cn o fill delim fmt enc shard) (fun m =>
      nsteps_create_dataset (Handle (h_path root ++ key) (h_mode root)) (KeyArgs delim fmt enc) m))
  | DoDatasetMd root key m =>
      nsteps_create_dataset (Handle (h_path root ++ key) (h_mode root)) (KeyArgs (md_delim m) (md_format m) (md_enc m)) m
  | DoOpen root key => nsteps_open_dataset root key
  | DoRemove h => nsteps_remove h
  | DoExists h => nexists (h_path h) (fun e => NRet (Ok (Whether e)))
  | DoIn h key => nisdir (h_path h ++ key) (fun e => NRet (Ok (Whether e)))
  end.

(** Code that runs without interruption: the file system afterwards and the answer. *)
Fixpoint run_nsteps (p : ncode) (s : fsys) : fsys * outcome answer :=
  match p with
  | NRet o => (s, o)
  | NAct f => let (s', p') := f s in run_nsteps p' s'
  end.

(** ** The clients *)
(** As in [M_AttrSteps]. *)
Record nclients := NClients {
  nc_files : fsys;
  nc_clients : list (option (ncall * ncode) * list ncall);
  nc_log : list (nat * ncall * outcome answer)
}.

(** Steps of client [t]. *)
Inductive nclient_step (y : nclients) (t : nat) : nclients -> Prop :=
| nc_start c rest : nth_error (nc_clients y) t = Some (None, c :: rest) ->
    nclient_step y t (NClients (nc_files y) (set_nth t (nc_clients y) (Some (c, steps_of_ncall c), rest)) (nc_log y))
| nc_act c f rest : nth_error (nc_clients y) t = Some (Some (c, NAct f), rest) ->
    nclient_step y t (NClients (fst (f (nc_files y)))
      (set_nth t (nc_clients y) (Some (c, snd (f (nc_files y))), rest)) (nc_log y))
| nc_end c o rest : nth_error (nc_clients y) t = Some (Some (c, NRet o), rest) ->
    nclient_step y t (NClients (nc_files y) (set_nth t (nc_clients y) (None, rest)) (nc_log y ++ [(t, c, o)])).
(** Any client may make the next step. *)
Definition nclients_step (y y' : nclients) : Prop := exists t, nclient_step y t y'.
Definition nclients_init (s : fsys) (calls : list (list ncall)) : nclients :=
  NClients s (map (fun l => (None, l)) calls) [].
(** All calls have returned. *)
Definition nclients_done (y : nclients) : Prop := Forall (fun x => x = (None, [])) (nc_clients y).

(** ** Interruption *)
(** The files when the process dies while it executes code: between two accesses; while
    text is written to a file that has been emptied (see [acrash]); or while files are
    removed: some of them are left, and the directories that they are in. *)
Inductive ncrash : ncode -> fsys -> fsys -> Prop :=
| ncrash_now p s : ncrash p s s
| ncrash_later f s s' : ncrash (snd (f s)) (fst (f s)) s' -> ncrash (NAct f) s s'
| ncrash_torn f s q j b : s q = Some (NBlob []) -> fst (f s) q = Some (NDoc j) ->
    ncrash (NAct f) s (fun x => if path_eqb x q then Some (NBlob b) else s x)
| ncrash_removing f s s' :
    (forall q, s' q = s q \/ s' q = None /\ fst (f s) q = None) ->
    (forall q r, s q <> None -> s' q = None -> below q r = true -> s' r = None) ->
    ncrash (NAct f) s s'.
