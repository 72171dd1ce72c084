(** Specification vocabulary for the python containers. *)
From Coq Require Import ZArith Ascii String.
From Verif Require Import M_Base M_Double M_Json M_Mode M_Key S_Text M_Metadata S_Metadata M_Fs M_Attributes S_Attributes
  M_Container S_Container M_PyGroup.
Import ListNotations.
Local Open Scope list_scope.
Local Open Scope N_scope.

(** * Names *)

(** A file name: not empty, no ".", "..", "/". *)
Definition proper (c : string) : Prop :=
  c <> ""%string /\ c <> "."%string /\ c <> ".."%string /\ slash_free c = true.
(** A name for a node: none of the names of z5's own documents. *)
Definition usable (c : string) : Prop := proper c /\ ~ In c reserved_names.

(** [n] times "/". *)
Fixpoint slashes (n : nat) : string :=
  match n with O => "" | S n => String "/"%char (slashes n) end.

(** The name of the node reached by [key]: "a/b/c". *)
Definition name_of (key : path) : string := String.concat "/" key.

(** Two objects are the same apart from the name they were looked up with. *)
Definition same_obj (x y : pyobj) : Prop :=
  match x, y with
  | PGroup g, PGroup h => pg_handle g = pg_handle h /\ pg_sep g = pg_sep h /\ pg_format g = pg_format h
  | PDataset d, PDataset e => pd_impl d = pd_impl e
  | _, _ => False
  end.
Definition same_result (x y : outcome pyobj) : Prop :=
  match x, y with
  | Ok a, Ok b => same_obj a b
  | Throw e, Throw f => e = f
  | UB, UB => True
  | _, _ => False
  end.

(** All nodes on the way from the group [p] along [key] that exist are of the same
    format (directories of a container of format [z]). *)
Definition uniform (s : fsys) (p : path) (z : bool) (key : path) : Prop :=
  is_zarr_group s p = Ok z /\
  forall k1 k2, key = k1 ++ k2 -> s (p ++ k1) = None \/ is_zarr_group s (p ++ k1) = Ok z.

(** Nothing that exists is changed, and what appears lies below [p]. *)
Definition grown (p : path) (s s' : fsys) : Prop :=
  (forall q, s q <> None -> s' q = s q) /\ (forall q, below p q = false -> s' q = s q).

(** The zarr format of new datasets. *)
Definition dataset_format (f : py_format) : Z := match f with FZarr3 => 3 | _ => 2 end%Z.

Definition zarr_of (f : py_format) : bool := match f with FN5 => false | _ => true end.

(** * Compression settings *)

(** The option [k] has the value [v]: the integer given, else the default. *)
Definition wanted_int (opts : list (string * json)) (k : string) (dflt v : Z) : Prop :=
  match sfind k opts with
  | None => v = dflt
  | Some (JInt z) => v = z
  | Some (JUInt n) => v = Z.of_N n
  | _ => False
  end.
Definition wanted_str (opts : list (string * json)) (k dflt v : string) : Prop :=
  match sfind k opts with
  | None => v = dflt
  | Some (JStr t) => v = t
  | _ => False
  end.

(** The name of the compression level of blosc in the python interface. *)
Definition level_key (f : py_format) : string := (match f with FZarr3 => "level" | _ => "clevel" end)%string.

(** The codec that the python arguments ask for: the library, header and settings
    by their documented meaning. *)
Definition wanted_codec (f : py_format) (comp : string) (opts : list (string * json)) (c : codec_config) : Prop :=
  (match c with
  | Cfg_raw => comp = "raw"
  | Cfg_blosc l s cn bs nt =>
      comp = "blosc" /\ wanted_int opts (level_key f) 5 l /\ wanted_int opts "shuffle" 1 s /\
      wanted_str opts "codec" "lz4" cn /\ wanted_int opts "blocksize" 0 bs /\ wanted_int opts "nthreads" 1 nt
  | Cfg_zlib l header =>
      (comp = "zlib" /\ header = true \/ comp = "gzip" /\ header = false) /\ wanted_int opts "level" 5 l
  | Cfg_bzip2 l => comp = "bzip2" /\ wanted_int opts "level" 5 l
  | Cfg_lz4 l => comp = "lz4" /\ wanted_int opts "level" 6 l
  | Cfg_xz l => comp = "xz" /\ wanted_int opts "level" 6 l
  | Cfg_zstd l => comp = "zstd" /\ wanted_int opts "level" 3 l
  end)%string.

(** Integers among the options are C++ ints; no internal options are given. *)
Definition plain_options (opts : list (string * json)) : Prop :=
  (forall k z, sfind k opts = Some (JInt z) -> is_int z) /\
  (forall k n, sfind k opts = Some (JUInt n) -> is_int (Z.of_N n)) /\
  sfind "useZlib" opts = None /\ sfind "id" opts = None.

(** The value [w] of a reported option is the value [v] that was given. *)
Definition same_setting (v w : json) : Prop :=
  match v, w with
  | JInt z, JInt y => y = z
  | JUInt n, JInt y => y = Z.of_N n
  | JStr a, JStr b => b = a
  | _, _ => False
  end.

(** * Visiting *)

(** The directory listing: every sub-directory once. *)
Definition listing (s : fsys) (ls : path -> list string) : Prop :=
  (forall p, NoDup (ls p) /\ forall a, In a (ls p) <-> fs_isdir s (p ++ [a]) = true) /\
  (forall p a, In a (ls p) -> proper a).

(** The members of a group and of the groups below it: [x] is [g[k1][k2]...]. *)
Inductive member (s : fsys) : pygroup -> path -> pyobj -> Prop :=
| member_child g a x : proper a -> py_getitem s g a = Ok x -> member s g [a] x
| member_below g a g' k x : proper a -> py_getitem s g a = Ok (PGroup g') -> member s g' k x -> member s g (a :: k) x.

(** All directories in the group [g] and the groups below it can be looked up. *)
Definition all_readable (s : fsys) (ls : path -> list string) (g : pygroup) : Prop :=
  forall g', g' = g \/ (exists k, member s g k (PGroup g')) ->
  forall a, In a (ls (h_path (pg_handle g'))) -> is_ok (py_getitem s g' a) = true.

(** Calling [func] for one member after the other until it returns something. *)
Fixpoint walk {B} (func : list (string * pyobj) -> string -> pyobj -> option B)
    (calls todo : list (string * pyobj)) : list (string * pyobj) * option B :=
  match todo with
  | [] => (calls, None)
  | (n, x) :: r => match func calls n x with
                   | Some b => (calls ++ [(n, x)], Some b)
                   | None => walk func (calls ++ [(n, x)]) r
                   end
  end.

(** * New datasets *)

(** A dataset object is what the caller of create_dataset asked for, in a container
    of format [z]. *)
Record py_asked (g : pygroup) (z : bool) (a : ds_args) (o : opened) : Prop := {
  pa_mode : op_mode o = h_mode (pg_handle g);
  pa_shape : match a_shape a with Some sh => op_shape o = sh | None => True end;
  pa_dtype : match a_dtype a with Some ty => asked_dtype ty (op_dtype o) | None => True end;
  pa_data : match a_data a with Some (sh, ty) => op_shape o = sh /\ asked_dtype ty (op_dtype o) | None => True end;
  (* chunks: those given, limited to the shape; else the same extent in every
     dimension (limited to the shape) such that a chunk has about 64^3 elements *)
  pa_chunks : match a_chunks a with
              | Some c => lenN c = lenN (op_shape o) /\ op_chunks o = map2 N.min c (op_shape o)
              | None => op_chunks o <> [] /\ exists e, op_chunks o = map (fun x => N.min e x) (op_shape o) /\
                  (2 * e - 1) ^ lenN (op_shape o) <= 2 ^ (18 + lenN (op_shape o)) < (2 * e + 1) ^ lenN (op_shape o) /\ 1 <= e
              end;
  pa_fill : element_fill (op_dtype o) (a_fill a) = Ok (op_fill o);
  pa_shard : op_shard o = match a_shards a with Some x => x | None => [] end;
  pa_shard_format : a_shards a <> None -> format_of z (pg_format g) = FZarr3;
  pa_keys : op_keys o = match format_of z (pg_format g) with
                        | FZarr3 => KeyConfig z (if String.eqb (a_enc a) "v2" then "." else "/")%string 3 (a_enc a)
                        | _ => KeyConfig z (pg_sep g) 2 "default"
                        end;
  (* known exceptions: the blosc level in n5 and zarr v2, gzip in zarr v2 *)
  pa_codec : let f := format_of z (pg_format g) in
             let comp := match a_comp a with Some c => c | None => py_default_compressor f end in
             plain_options (a_opts a) ->
             (comp = "blosc"%string -> f = FZarr3 \/ sfind (level_key f) (a_opts a) = None) ->
             (f = FZarr2 -> comp <> "gzip"%string) ->
             wanted_codec f comp (a_opts a) (op_codec o)
}.

(** * Passing settings back *)

(** The integers among the settings are C++ ints (as they are in every codec
    object). *)
Definition codec_ints (c : codec_config) : Prop :=
  match c with
  | Cfg_raw => True
  | Cfg_blosc l s _ bs nt => is_int l /\ is_int s /\ is_int bs /\ is_int nt
  | Cfg_zlib l _ | Cfg_bzip2 l | Cfg_lz4 l | Cfg_xz l | Cfg_zstd l => is_int l
  end.

(** The codecs of which a dataset reports the settings with the names that
    create_dataset wants. *)
Definition reported_well (f : py_format) (c : codec_config) : Prop :=
  match f, c with
  | FN5, (Cfg_bzip2 _ | Cfg_lz4 _ | Cfg_xz _ | Cfg_zstd _) => True
  | FN5, Cfg_zlib _ header => header = false
  | FZarr2, Cfg_zlib _ header => header = true
  | FZarr2, Cfg_zstd _ => True
  | FZarr3, Cfg_zstd _ => True
  | _, _ => False
  end.

(** The arguments [a], with the compression settings that the dataset [o] reports. *)
Definition with_settings (a : ds_args) (comp : string) (opts : list (string * json)) : ds_args :=
  DsArgs (a_shape a) (a_dtype a) (a_data a) (a_chunks a) (Some comp) (a_fill a) (a_shards a) (a_enc a) opts.

(** * Attributes *)

(** What a python dict is used for. *)
Inductive dict_op :=
| DGet (k : string) | DIn (k : string) | DSet (k : string) (v : json) | DUpdate (l : list (string * json))
| DDel (k : string) | DPop (k : string).

(** A dict in which the names [prot] cannot be assigned or deleted.  None: the call
    raises; Some None: it returns nothing.  Values are stored as json text. *)
Definition dict_step (prot : list string) (o : dict_op) (t : table) : option (option json) * table :=
  let fixed k := existsb (String.eqb k) prot in
  match o with
  | DGet k => (match t k with Some v => Some (Some v) | None => None end, t)
  | DIn k => (Some (Some (JBool (match t k with Some _ => true | None => false end))), t)
  | DSet k v => if fixed k then (None, t)
                else (Some None, fun a => if String.eqb k a then Some (reparse v) else t a)
  | DUpdate l => if existsb (fun k => existsb (String.eqb k) (map fst l)) prot then (None, t)
                 else (Some None, fun a => match jlookup a l with Some v => Some (reparse v) | None => t a end)
  | DDel k => if fixed k then (None, t)
              else match t k with
                   | None => (None, t)
                   | Some _ => (Some None, fun a => if String.eqb k a then None else t a)
                   end
  | DPop k => match t k with
              | None => (None, t)
              | Some v => if fixed k then (None, t)
                          else (Some (Some v), fun a => if String.eqb k a then None else t a)
              end
  end.
Fixpoint dict_run (prot : list string) (ops : list dict_op) (t : table) : list (option (option json)) * table :=
  match ops with
  | [] => ([], t)
  | o :: r => let (x, t1) := dict_step prot o t in let (xs, t2) := dict_run prot r t1 in (x :: xs, t2)
  end.

(** The same calls through an AttributeManager; the caller catches exceptions. *)
Definition result {A} (f : A -> option json) (r : outcome A) : option (option json) :=
  match r with Ok x => Some (f x) | _ => None end.
Definition py_dict_step (a : attr_manager) (o : dict_op) (s : fsys) : option (option json) * fsys :=
  match o with
  | DGet k => (result (fun v => Some v) (py_attr_get s a k), s)
  | DIn k => (result (fun b => Some (JBool b)) (py_attr_in s a k), s)
  | DSet k v => let (s', r) := py_attr_set a k v s in (result (fun _ => None) r, s')
  | DUpdate l => let (s', r) := py_attr_update a l s in (result (fun _ => None) r, s')
  | DDel k => let (s', r) := py_attr_del a k s in (result (fun _ => None) r, s')
  | DPop k => let (s', r) := py_attr_pop a k s in (result (fun v => Some v) r, s')
  end.
Fixpoint py_dict_run (a : attr_manager) (ops : list dict_op) (s : fsys) : list (option (option json)) * fsys :=
  match ops with
  | [] => ([], s)
  | o :: r => let (x, s1) := py_dict_step a o s in let (xs, s2) := py_dict_run a r s1 in (x :: xs, s2)
  end.

(** One value per key; no deletion of a name that is not there. *)
Definition dict_op_ok (o : dict_op) : Prop := match o with DUpdate l => NoDup (map fst l) | _ => True end.
Fixpoint dels_present (prot : list string) (ops : list dict_op) (t : table) : Prop :=
  match ops with
  | [] => True
  | o :: r => match o with DDel k => t k <> None \/ existsb (String.eqb k) prot = true | _ => True end /\
              dels_present prot r (snd (dict_step prot o t))
  end.

(** * New objects *)

(** The dataset [d] made by a call on the group [g] is what the same name yields
    afterwards; nothing that was there is changed and everything new lies below
    the first component of the name. *)
Record found (s s' : fsys) (g : pygroup) (key : path) (d : pydataset) : Prop := {
  fo_tree : fs_ok s';
  fo_grown : grown (h_path (pg_handle g) ++ firstn 1 key) s s';
  fo_item : exists d', py_getitem s' g (name_of key) = Ok (PDataset d') /\ same_object (pd_impl d) (pd_impl d');
  fo_path : op_path (pd_impl d) = h_path (pg_handle g) ++ key
}.

(** The same, and the groups on the way are found too. *)
Record made (s s' : fsys) (g : pygroup) (key : path) (d : pydataset) : Prop := {
  md_tree : fs_ok s';
  md_grown : grown (h_path (pg_handle g) ++ firstn 1 key) s s';
  md_item : exists d', py_getitem s' g (name_of key) = Ok (PDataset d') /\ same_object (pd_impl d) (pd_impl d');
  md_path : op_path (pd_impl d) = h_path (pg_handle g) ++ key;
  md_groups : forall k1 k2, key = k1 ++ k2 -> k1 <> [] -> k2 <> [] ->
    exists g', py_getitem s' g (name_of k1) = Ok (PGroup g') /\
      pg_handle g' = Handle (h_path (pg_handle g) ++ k1) (h_mode (pg_handle g)) /\
      pg_sep g' = pg_sep g /\ pg_format g' = pg_format g;
  md_format : forall k1 k2, key = k1 ++ k2 -> k2 <> [] ->
    is_zarr_group s' (h_path (pg_handle g) ++ k1) = is_zarr_group s (h_path (pg_handle g))
}.

(** The same for a group. *)
Record group_found (s s' : fsys) (g : pygroup) (key : path) (g' : pygroup) : Prop := {
  gf_tree : fs_ok s';
  gf_grown : grown (h_path (pg_handle g) ++ firstn 1 key) s s';
  gf_item : py_getitem s' g (name_of key) = Ok (PGroup g');
  gf_handle : pg_handle g' = Handle (h_path (pg_handle g) ++ key) (h_mode (pg_handle g));
  gf_sep : pg_sep g' = pg_sep g;
  gf_format : pg_format g' = pg_format g
}.

(** The arguments of require_dataset: the shape is given. *)
Definition with_shape (sh : shape) (a : ds_args) : ds_args :=
  DsArgs (Some sh) (a_dtype a) (a_data a) (a_chunks a) (a_comp a) (a_fill a) (a_shards a) (a_enc a) (a_opts a).

(** A group created with a leading "/" lies outside the container. *)
Definition escaped (s s' : fsys) (g : pygroup) (name : string) (key : path) (g' : pygroup) : Prop :=
  h_path (pg_handle g') = key /\ s key = None /\ s' key = Some NDir /\
  (forall q, below (h_path (pg_handle g)) q = true -> s' q = s q) /\
  py_contains s' g name = false.
