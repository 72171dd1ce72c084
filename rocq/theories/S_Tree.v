(** Specification of a container with the chunks of its datasets. *)
From Coq Require Import ZArith String.
From Verif Require Import M_Base M_Text M_Json M_Mode M_Key M_View M_Format M_Dataset M_Sharded M_Access M_Store M_Double M_Metadata M_Fs M_Attributes M_Container M_Tree
  S_Array S_Grid S_Text S_Metadata S_Container S_Dataset S_Access S_S3.
Import ListNotations.
Local Open Scope list_scope.
Local Open Scope N_scope.

(** What the element types, fill values and codecs of dataset objects stand for. *)
Record meaning := Meaning {
  m_elem : dtype -> elem_type;
  m_fill : dtype -> fill_elem -> cell;
  m_codec : codec_config -> codec;
  m_text : json -> bytes          (* text of a document *)
}.
Definition array_of (M : meaning) (o : opened) : dataset := dataset_of (m_elem M) (m_fill M) (m_codec M) o.

(** A call through the dataset object [o] on the container: *)
Definition tree_call (M : meaning) (o : opened) (c : ds_call) : act fsys answer :=
  match op_shard o with
  | [] => call (tree_policy (m_text M) (op_path o)) (array_of M o) c
  | _ => do^ sd <- aret (open_sharded (array_of M o) (op_shard o)) in
         sh_call (tree_policy (m_text M) (op_path o)) sd c
  end.
(** and on a directory that has nothing but the chunks of this dataset, the model of the
    properties of a single dataset. *)
Definition alone_call (M : meaning) (o : opened) (c : ds_call) : act store answer :=
  match op_shard o with
  | [] => fs_call (array_of M o) c
  | _ => do^ sd <- aret (open_sharded (array_of M o) (op_shard o)) in fs_sh_call sd c
  end.

(** The chunk files of a dataset in the directory [p]. *)
Definition files_at (p : path) (t : fsys) : store := fun key =>
  match t (p ++ resolve key) with Some (NBlob b) => Some b | _ => None end.
Definition no_files : store := fun _ => None.

(** Where the chunks of [o] are: [q] is the place of a chunk or (for nested chunks) a
    directory above chunks. *)
Definition chunk_place (o : opened) (q : path) : Prop :=
  exists ids, List.length ids = List.length (op_shape o) /\ q = op_path o ++ resolve (chunk_key (op_keys o) ids).
Definition chunk_dir (o : opened) (q : path) : Prop :=
  q <> op_path o /\ exists ids a r, List.length ids = List.length (op_shape o) /\
    op_path o ++ resolve (chunk_key (op_keys o) ids) = q ++ a :: r /\ path_prefix (op_path o) q.

(** There is the directory of the dataset, and nothing is in the way of its chunks. *)
Record dataset_place (o : opened) (t : fsys) : Prop := {
  dp_fs : fs_ok t;
  dp_dir : t (op_path o) = Some NDir;
  dp_chunks : forall q, chunk_place o q -> t q = None \/ exists b, t q = Some (NBlob b);
  dp_dirs : forall q, chunk_dir o q -> t q = None \/ t q = Some NDir
}.

(** What a call through [o] may change: chunks, and missing directories of chunks. *)
Definition only_chunks (o : opened) (t t' : fsys) : Prop := forall q,
  t' q = t q \/ chunk_place o q \/ (chunk_dir o q /\ t q = None /\ t' q = Some NDir).

(** The files of two directories agree on the chunks of [o]. *)
Definition same_chunks (o : opened) (a b : store) : Prop :=
  forall ids, List.length ids = List.length (op_shape o) -> a (chunk_key (op_keys o) ids) = b (chunk_key (op_keys o) ids).

(** Datasets with at least one axis, a chunk shape of the same rank, and
    a delimiter that makes file names. *)
Record object_ok (o : opened) : Prop := {
  oo_axes : op_shape o <> [];
  oo_chunks : List.length (op_chunks o) = List.length (op_shape o);
  oo_delim : k_zarr (op_keys o) = true -> good_separator (k_delim (op_keys o)) /\
     (k_delim (op_keys o) = "/"%string \/ slash_free (k_delim (op_keys o)) = true);
  oo_sharded : op_shard o <> [] -> k_zarr (op_keys o) = true
}.

(** Chunk positions with one number per axis. *)
Definition fitting (o : opened) (c : ds_call) : Prop :=
  match c with
  | KWrite ids _ | KVarlenWrite ids _ _ | KRead ids _ | KRaw ids | KExists ids | KRemove ids =>
      List.length ids = List.length (op_shape o)
  | KWriteArray _ _ _ | KReadArray _ _ _ => True
  end.

(** ** Histories of a container *)

(** A call on a node, with handles of any mode, or through a dataset object. *)
Inductive tree_op := ONode (m : mode) (c : ccall) | OData (o : opened) (c : ds_call).
Definition run_tree (M : meaning) (x : tree_op) : act fsys answer :=
  match x with
  | ONode m c => amap (fun _ => AUnit) (run_ccall m c)
  | OData o c => tree_call M o c
  end.

(** Neither of the two paths leads through the other. *)
Definition apart (p q : path) : Prop := below p q = false /\ below q p = false.

(** The keys of the object's chunks are names of files in its directory. *)
Definition stays_inside (o : opened) : Prop :=
  k_zarr (op_keys o) = true \/ op_shard o <> [] ->
  k_delim (op_keys o) = "/"%string \/ slash_free (k_delim (op_keys o)) = true.

(** Not a place inside of the directory [p]. *)
Definition not_inside (p q : path) : Prop := below p q = false \/ q = p.

(** Calls that do not touch the dataset [o]: removing a node or data of datasets that are
    neither above nor below [o]; writing attributes of a node (that may be [o] itself)
    and making nodes anywhere but inside of [o]. *)
Definition elsewhere (o : opened) (x : tree_op) : Prop :=
  match x with
  | ONode _ (CRemove p) => apart (op_path o) p
  | ONode _ c => not_inside (op_path o) (target c)
  | OData o2 _ => apart (op_path o) (op_path o2) /\ stays_inside o2
  end.

(** Data calls through any objects whose datasets are there. *)
Definition data_ok (t : fsys) (x : opened * ds_call) : Prop :=
  object_ok (fst x) /\ fitting (fst x) (snd x) /\ t (op_path (fst x)) = Some NDir.
Definition data_history (M : meaning) (l : list (opened * ds_call)) (t : fsys) : fsys * list (outcome answer) :=
  history (fun x => tree_call M (fst x) (snd x)) l t.

(** Another object for the dataset of [o]: its mode (and anything that has no effect on
    the places of chunks) may differ. *)
Record same_grid (o o' : opened) : Prop := {
  sg_ok : object_ok o';
  sg_path : op_path o' = op_path o;
  sg_shape : op_shape o' = op_shape o;
  sg_keys : forall ids, chunk_key (op_keys o') ids = chunk_key (op_keys o) ids
}.

(** Calls on the dataset of [o], through any object for it, between other calls. *)
Inductive step := Own (o' : opened) (c : ds_call) | Other (x : tree_op).
Definition run_step (M : meaning) (x : step) : act fsys answer :=
  match x with Own o' c => tree_call M o' c | Other x => run_tree M x end.
Definition step_ok (o : opened) (x : step) : Prop :=
  match x with Own o' c => same_grid o o' /\ fitting o c | Other x => elsewhere o x end.
Fixpoint own_calls (l : list step) : list (opened * ds_call) :=
  match l with [] => [] | Own o' c :: r => (o', c) :: own_calls r | _ :: r => own_calls r end.
(** The answers to the calls on the dataset. *)
Fixpoint own_answers {A} (l : list step) (a : list A) : list A :=
  match l, a with
  | Own _ _ :: r, x :: a' => x :: own_answers r a'
  | _ :: r, _ :: a' => own_answers r a'
  | _, _ => []
  end.
(** The calls on the dataset alone. *)
Definition alone (M : meaning) (x : opened * ds_call) : act store answer := alone_call M (fst x) (snd x).

(** Calls on the dataset [key] of the container [root], and calls on other nodes, neither
    above nor below it. *)
Definition in_life (root key : path) (o : opened) (x : step) : Prop :=
  match x with
  | Own o' c => same_grid o o' /\ fitting o c
  | Other (ONode _ c) => sibling_call root key c
  | Other (OData o2 _) => stays_inside o2 /\
      exists key2, op_path o2 = root ++ key2 /\ key_free key2 /\ below key key2 = false /\ below key2 key = false
  end.
(** The mode of an object. *)
Definition with_mode (m : mode) (o : opened) : opened :=
  Opened (op_path o) m (op_keys o) (op_dtype o) (op_shape o) (op_chunks o) (op_fill o) (op_codec o) (op_shard o).

(** ** A dataset as an array *)

(** The history of a dataset: operations on the array through the object that was made,
    calls that only look, through any object, and calls on other nodes. *)
Inductive event := EOp (x : array_op) | ELook (o' : opened) (c : ds_call) | EOther (x : tree_op).
Definition op_call (x : array_op) : ds_call :=
  match x with
  | S_Access.AWrite off n src => KWriteArray src off n
  | AChunk c data => KWrite c data
  | S_Access.ARemove c => KRemove c
  end.
Definition looks (c : ds_call) : Prop :=
  match c with KRead _ _ | KRaw _ | KExists _ | KReadArray _ _ _ => True | _ => False end.
Definition event_step (o : opened) (e : event) : step :=
  match e with EOp x => Own o (op_call x) | ELook o' c => Own o' c | EOther x => Other x end.
Definition event_ok (root key : path) (o : opened) (d : dataset) (e : event) : Prop :=
  match e with
  | EOp x => array_op_ok d x
  | ELook o' c => looks c /\ in_life root key o (Own o' c)
  | EOther x => in_life root key o (Other x)
  end.
Fixpoint array_ops (l : list event) : list array_op :=
  match l with [] => [] | EOp x :: r => x :: array_ops r | _ :: r => array_ops r end.

(** [out'] is [out] with the elements of the array [a] from [off] on in the view [ov]. *)
Definition holds_region (d : dataset) (a : shape -> cell) (ov : view) (off : shape) (out out' : list cell) : Prop :=
  lenN out' = lenN out /\
  (forall i, in_shape (v_shape ov) i -> exists v, getN out' (v_off ov + lin (v_strides ov) i) = Ok v /\
     same_value d v (a (vadd off i)) /\ (t_float (d_type d) = false -> v = a (vadd off i))) /\
  (forall x, (forall i, in_shape (v_shape ov) i -> x <> v_off ov + lin (v_strides ov) i) -> getN out' x = getN out x).
