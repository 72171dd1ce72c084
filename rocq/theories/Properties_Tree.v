(** Properties of containers with the chunks of their datasets: documents, directories
    and chunk files in one tree. *)
From Coq Require Import ZArith String.
From Verif Require Import M_Base P_Format M_Text M_Double M_Json M_Mode M_Key M_View M_Format M_Metadata S_Metadata M_Dataset M_Sharded M_Access M_Store M_Fs M_Attributes S_Attributes P_Attributes
  M_Container S_Container P_Container M_Tree S_Array S_Grid S_Text S_Format S_Dataset S_Access S_Sharded S_S3 S_Tree
  P_Tree P_Tree2 P_Tree3 P_Tree4 Properties_Attributes Properties_Container Properties_Dataset Properties_Access Properties_Sharded.
Import ListNotations.
Local Open Scope list_scope.
Local Open Scope N_scope.
Local Notation length := List.length.

(** C89.  A call through a dataset object on the container: the answer is the one it
    gives on a directory with nothing but these chunks, the chunks are left the same way,
    and nothing else is changed but missing directories of chunks. *)
Theorem C89_call M o c t st : object_ok o -> fitting o c -> dataset_place o t -> same_chunks o st (files_at (op_path o) t) ->
  let '(st', a) := alone_call M o c st in
  let '(t', a') := tree_call M o c t in
  a' = a /\ dataset_place o t' /\ same_chunks o st' (files_at (op_path o) t') /\ only_chunks o t t'.
Proof. exact (@tree_call_alone M o c t st). Qed.
Print Assumptions C89_call.

(** A plain dataset recognises its chunks of variable length (n5). *)
Theorem C89_varlen M o ids t st : object_ok o -> length ids = length (op_shape o) -> dataset_place o t ->
  same_chunks o st (files_at (op_path o) t) ->
  g_check_varlen (tree_policy (m_text M) (op_path o)) (array_of M o) ids t = (t, check_varlen_chunk (array_of M o) st ids).
Proof. exact (@tree_varlen M o ids t st). Qed.
Print Assumptions C89_varlen.

(** Histories: between the calls on the dataset there may be calls on other nodes and
    datasets, and calls that write attributes, of the dataset as well. *)
Theorem C89_history M o l t st : object_ok o -> Forall (step_ok o) l ->
  dataset_place o t -> same_chunks o st (files_at (op_path o) t) ->
  let '(st', a) := history (alone M) (own_calls l) st in
  let '(t', a') := history (run_step M) l t in
  own_answers l a' = a /\ dataset_place o t' /\ same_chunks o st' (files_at (op_path o) t').
Proof. intros ok H. exact (@history_alone M o l ok H t st). Qed.
Print Assumptions C89_history.

(** A dataset that was just made is in place, without chunks. *)
Theorem C89_created root key dn sh ch cn op fill delim fmt enc shard t t1 o z : fs_ok t -> is_zarr_group t (h_path root) = Ok z ->
  (z = true -> good_separator delim /\ (delim = "/"%string \/ slash_free delim = true)) -> length ch = length sh ->
  create_dataset root key dn sh ch cn op fill delim fmt enc shard t = (t1, Ok o) ->
  object_ok o /\ dataset_place o t1 /\ same_chunks o no_files (files_at (op_path o) t1).
Proof. exact (@created_place root key dn sh ch cn op fill delim fmt enc shard t t1 o z). Qed.
Print Assumptions C89_created.

(** ** Examples *)

(** Elements of two bytes, little endian, not compressed. *)
Definition ex_M : meaning := Meaning (fun _ => ElemType 2 false)
  (fun _ e => match e with FInt z => [Z.to_N (z mod 256); Z.to_N (z / 256 mod 256)] | FReal _ => [0; 0] end)
  (fun _ => raw_codec) (fun _ => [123; 125]).
(** The container /f (of [ex_fs], with the group g and the dataset g/d) and a dataset x/y in it: *)
Definition ex_make (z : bool) (fmt : Z) (key : path) (sh ch : shape) (fill : dbl) (shard : shape) : fsys -> fsys * outcome opened :=
  create_dataset ex_root_h key "int16" sh ch "raw" [] fill "/" fmt "default" shard.
Definition ex_seven : dbl := DFin false 7 0.
Definition ex_v2 : opened :=
  Opened ["f"; "x"; "y"]%string Mode_a (KeyConfig true "/" 2 "default") DT_int16 [5; 3] [2; 2] (FInt 7) Cfg_raw [].
Definition ex_v3 : opened :=
  Opened ["f"; "x"; "y"]%string Mode_a (KeyConfig true "/" 3 "default") DT_int16 [5; 3] [2; 2] (FInt 7) Cfg_raw [4; 2].
Definition ex_n5o : opened :=
  Opened ["f"; "x"; "y"]%string Mode_a (KeyConfig false "/" 2 "default") DT_int16 [5; 3] [2; 2] (FInt 0) Cfg_raw [].
Definition ex_t2 : fsys := fst (ex_make true 2 ["x"; "y"]%string [5; 3] [2; 2] ex_seven [] (ex_fs true 2)).
Definition ex_t3 : fsys := fst (ex_make true 3 ["x"; "y"]%string [5; 3] [2; 2] ex_seven [4; 2] (ex_fs true 3)).
Definition ex_t5 : fsys := fst (ex_make false 2 ["x"; "y"]%string [5; 3] [2; 2] (DZero false) [] (ex_fs false 2)).

Lemma made A (x : fsys * outcome A) (o : A) : snd x = Ok o -> x = (fst x, Ok o).
Proof. destruct x. cbn. congruence. Qed.
Lemma ex_made2 : ex_make true 2 ["x"; "y"]%string [5; 3] [2; 2] ex_seven [] (ex_fs true 2) = (ex_t2, Ok ex_v2).
Proof. apply made. vm_compute. reflexivity. Qed.
Lemma ex_made3 : ex_make true 3 ["x"; "y"]%string [5; 3] [2; 2] ex_seven [4; 2] (ex_fs true 3) = (ex_t3, Ok ex_v3).
Proof. apply made. vm_compute. reflexivity. Qed.
Lemma ex_made5 : ex_make false 2 ["x"; "y"]%string [5; 3] [2; 2] (DZero false) [] (ex_fs false 2) = (ex_t5, Ok ex_n5o).
Proof. apply made. vm_compute. reflexivity. Qed.

(** Calls on other nodes, and a history in which they stand between calls on x/y. *)
Definition ex_gd : opened :=
  Opened ["f"; "g"; "d"]%string Mode_a (KeyConfig true "/" 2 "default") DT_uint8 [5; 4] [2; 3] (FInt 0) Cfg_raw [].
Definition ex_group : tree_op := ONode Mode_a (CCreateGroup ["f"] ["x2"] 2)%string.
Definition ex_attr : tree_op := ONode Mode_a (CWriteAttr HDataset ["f"; "g"; "d"] (JObj [("a", JInt 1)]))%string.
Definition ex_data : tree_op := OData ex_gd (KWriteArray (FromScalar [1; 1]) [0; 0] [2; 2]).
Definition ex_rm : tree_op := ONode Mode_a (CRemove ["f"; "g"])%string.
Definition ex_life (o : opened) : list step :=
  [Own o (KWriteArray (FromScalar [9; 1]) [4; 0] [1; 2]); Other ex_group; Other ex_attr; Own (with_mode Mode_r o) (KRemove [2; 0]);
   Other ex_data; Own (with_mode Mode_r o) (KExists [2; 0]); Other ex_rm; Own o (KRead [2; 0] [[0; 0]; [0; 0]; [0; 0]; [0; 0]])].

Lemma ex_obj_ok : object_ok ex_v2 /\ object_ok ex_v3 /\ object_ok ex_n5o.
Proof.
  assert (G : good_separator "/") by reflexivity.
  split; [|split]; (constructor; [discriminate|reflexivity|cbn; auto|cbn; congruence]).
Qed.
Lemma ex_grid : same_grid ex_v2 (with_mode Mode_r ex_v2).
Proof. apply with_mode_grid, grid_refl, ex_obj_ok. Qed.
Lemma ex_place : fs_ok (ex_fs true 2) /\ dataset_place ex_v2 ex_t2 /\ same_chunks ex_v2 no_files (files_at (op_path ex_v2) ex_t2).
Proof.
  split; [apply ex_fs_ok|]. apply (@C89_created ex_root_h ["x"; "y"]%string "int16" [5; 3] [2; 2] "raw" [] ex_seven "/" 2 "default" [] (ex_fs true 2) ex_t2 ex_v2 true (ex_fs_ok _ _)); [vm_compute; reflexivity| |reflexivity|exact ex_made2].
  intros _. split; [reflexivity|now left].
Qed.
Lemma ex_siblings : Forall (fun x => in_life ["f"%string] ["x"; "y"]%string ex_v2 (Other x)) [ex_group; ex_attr; ex_data; ex_rm].
Proof.
  unfold ex_group, ex_attr, ex_data, ex_rm. repeat apply Forall_cons; try apply Forall_nil; cbn [in_life].
  - exists ["x2"%string]. vm_compute. repeat split; discriminate.
  - exists ["g"; "d"]%string. vm_compute. repeat split; discriminate.
  - split; [intros _; now left|]. exists ["g"; "d"]%string. vm_compute. repeat split; discriminate.
  - exists ["g"%string]. vm_compute. repeat split; discriminate.
Qed.
Lemma ex_life_ok : Forall (in_life ["f"%string] ["x"; "y"]%string ex_v2) (ex_life ex_v2).
Proof.
  pose proof ex_siblings as X. inversion X as [|? ? X1 Y1]; subst. inversion Y1 as [|? ? X2 Y2]; subst. inversion Y2 as [|? ? X3 Y3]; subst. inversion Y3 as [|? ? X4 Y4]; subst.
  unfold ex_life. repeat apply Forall_cons; try apply Forall_nil; auto; (split; [|exact I || reflexivity]).
  - apply grid_refl, ex_obj_ok.
  - apply ex_grid.
  - apply ex_grid.
  - apply grid_refl, ex_obj_ok.
Qed.

Example C89_case :
  object_ok ex_v2 /\ dataset_place ex_v2 ex_t2 /\ same_chunks ex_v2 no_files (files_at (op_path ex_v2) ex_t2) /\
  Forall (step_ok ex_v2) (ex_life ex_v2) /\
  snd (history (run_step ex_M) (ex_life ex_v2) ex_t2) =
    [Ok AUnit; Ok AUnit; Ok AUnit; Throw EInvalidArgument; Ok AUnit; Ok (ABool true); Ok AUnit;
     Ok (ACells false [[9; 1]; [9; 1]; [7; 0]; [7; 0]])] /\
  snd (history (alone ex_M) (own_calls (ex_life ex_v2)) no_files) =
    [Ok AUnit; Throw EInvalidArgument; Ok (ABool true); Ok (ACells false [[9; 1]; [9; 1]; [7; 0]; [7; 0]])] /\
  (let t := fst (history (run_step ex_M) (ex_life ex_v2) ex_t2) in
   t ["f"; "x"; "y"; "2"; "0"]%string = Some (NBlob [9; 1; 9; 1; 7; 0; 7; 0]) /\ t ["f"; "g"]%string = None /\ t ["f"; "x2"]%string = Some NDir).
Proof.
  split; [apply ex_obj_ok|]. split; [apply ex_place|]. split; [apply ex_place|]. split.
  - assert (G : same_grid ex_v2 ex_v2) by apply grid_refl, ex_obj_ok. pose proof ex_grid as G'.
    unfold ex_life, ex_group, ex_attr, ex_data, ex_rm. repeat apply Forall_cons; try apply Forall_nil; cbn [step_ok];
      try (split; [exact G || exact G'|exact I || reflexivity]); cbn [elsewhere].
    + left. reflexivity.
    + left. reflexivity.
    + split; [split; reflexivity|]. intros _. now left.
    + split; reflexivity.
  - split; [vm_compute; reflexivity|]. split; [vm_compute; reflexivity|]. vm_compute. auto.
Qed.

(** Finding: nothing keeps a caller from making a dataset inside of another one.  n5:
    element 3 of a/0 is stored where element (3, 0) of a belongs. *)
Definition ex_a : opened := Opened ["f"; "a"]%string Mode_a (KeyConfig false "/" 2 "default") DT_int16 [4; 4] [1; 1] (FInt 0) Cfg_raw [].
Definition ex_a0 : opened := Opened ["f"; "a"; "0"]%string Mode_a (KeyConfig false "/" 2 "default") DT_int16 [4] [1] (FInt 0) Cfg_raw [].
Example C89_varlen_case :
  let (t1, r1) := ex_make false 2 ["a"]%string [4; 4] [1; 1] (DZero false) [] (ex_fs false 2) in
  let (t2, r2) := tree_call ex_M ex_a (KVarlenWrite [3; 0] [[1; 0]; [2; 0]; [3; 0]] 3) t1 in
  r1 = Ok ex_a /\ r2 = Ok AUnit /\
  snd (g_check_varlen (tree_policy (m_text ex_M) (op_path ex_a)) (array_of ex_M ex_a) [3; 0] t2) = Ok (true, 3) /\
  snd (g_check_varlen (tree_policy (m_text ex_M) (op_path ex_a)) (array_of ex_M ex_a) [2; 0] t2) = Ok (false, 1).
Proof. vm_compute. auto. Qed.
Theorem C89_nested_refuted :
  let (t1, r1) := ex_make false 2 ["a"]%string [4; 4] [1; 1] (DZero false) [] (ex_fs false 2) in
  let (t2, r2) := ex_make false 2 ["a"; "0"]%string [4] [1] (DZero false) [] t1 in
  let (t3, r3) := tree_call ex_M ex_a0 (KWriteArray (FromScalar [8; 3]) [3] [1]) t2 in
  let read t := snd (tree_call ex_M ex_a (KReadArray (View 0 [4; 1] [1; 1]) [0; 0] (repeat [0; 0] 4)) t) in
  r1 = Ok ex_a /\ r2 = Ok ex_a0 /\ r3 = Ok AUnit /\
  read t2 = Ok (ACells false [[0; 0]; [0; 0]; [0; 0]; [0; 0]]) /\
  read t3 = Ok (ACells false [[0; 0]; [0; 0]; [0; 0]; [8; 3]]).
Proof. vm_compute. repeat split; reflexivity. Qed.
Print Assumptions C89_nested_refuted.

(** C47 fails for chunks with 2^64 elements: they are accepted, the size of the chunk buffer
    is computed as 0, and writing one element leaves it. *)
Definition ex_huge : shape := [4194304; 4194304; 1048576].
Theorem C47_huge_chunk_refuted :
  let (t, r) := ex_make true 2 ["x"%string] ex_huge ex_huge ex_seven [] (ex_fs true 2) in
  exists o, r = Ok o /\ op_chunks o = ex_huge /\ prod ex_huge = W64 /\
    snd (tree_call ex_M o (KWriteArray (FromScalar [9; 1]) [1; 1; 1] [1; 1; 1]) t) = UB.
Proof. eexists. split; [vm_compute; reflexivity|]. repeat split; vm_compute; reflexivity. Qed.
Print Assumptions C47_huge_chunk_refuted.

(** C90.  Data calls leave the directories, documents and attributes of all nodes that
    are not inside of a dataset as they are, those of the datasets included; *)
Theorem C90_metadata M l t q : fs_ok t -> Forall (data_ok t) l -> Forall (fun x => not_inside (op_path (fst x)) q) l ->
  let t' := fst (data_history M l t) in
  t' q = t q /\ (forall a, In a reserved_names -> t' (q ++ [a]) = t (q ++ [a])) /\ forall k, read_attributes k t' q = read_attributes k t q.
Proof. exact (@data_metadata M l t q). Qed.
Print Assumptions C90_metadata.

(** and every dataset is opened as before. *)
Theorem C90_reopen M l t root key : fs_ok t -> Forall (data_ok t) l -> Forall (fun x => not_inside (op_path (fst x)) (h_path root ++ key)) l ->
  open_dataset (fst (data_history M l t)) root key = open_dataset t root key.
Proof. exact (@data_reopen M l t root key). Qed.
Print Assumptions C90_reopen.

Definition ex_writes : list (opened * ds_call) :=
  [(ex_v2, KWriteArray (FromScalar [9; 1]) [0; 0] [5; 3]); (ex_v2, KRemove [1; 1]); (ex_v2, KWrite [7; 7] []);
   (ex_v2, KVarlenWrite [2; 1] [[1; 1]] 1)].
Example C90_case :
  fs_ok ex_t2 /\ Forall (data_ok ex_t2) ex_writes /\ Forall (fun x => not_inside (op_path (fst x)) ["f"; "x"; "y"]%string) ex_writes /\
  Forall (fun x => not_inside (op_path (fst x)) ["f"; "g"]%string) ex_writes /\
  ex_t2 ["f"; "x"; "y"; "0"; "0"]%string = None /\
  (let t := fst (data_history ex_M ex_writes ex_t2) in
   t ["f"; "x"; "y"; "0"; "0"]%string = Some (NBlob [9; 1; 9; 1; 9; 1; 9; 1]) /\ t ["f"; "x"; "y"; "1"; "1"]%string = None /\
   open_dataset t ex_root_h ["x"; "y"]%string = Ok ex_v2).
Proof.
  split; [apply ex_place|]. split.
  { unfold ex_writes. repeat apply Forall_cons; try apply Forall_nil; (split; [apply ex_obj_ok|split; [exact I || reflexivity|vm_compute; reflexivity]]). }
  split; [unfold ex_writes; repeat apply Forall_cons; try apply Forall_nil; right; reflexivity|].
  split; [unfold ex_writes; repeat apply Forall_cons; try apply Forall_nil; left; reflexivity|].
  vm_compute. auto.
Qed.

(** C91.  The life of a dataset: after it was made, under any calls on it and on other
    nodes, neither above nor below it, it is found again with the properties it was made
    with, and its chunks are what its own calls left. *)
Theorem C91_life M root key dn sh ch cn op fill delim fmt enc shard t t1 o z l :
  fs_ok t -> key_free key -> options_ok op -> dbl_ok fill ->
  is_zarr_group t (h_path root) = Ok z -> (z = true -> fmt = 2%Z \/ fmt = 3%Z) ->
  (z = true -> good_separator delim /\ (delim = "/"%string \/ slash_free delim = true)) -> length ch = length sh ->
  create_dataset root key dn sh ch cn op fill delim fmt enc shard t = (t1, Ok o) ->
  recordable_codec z fmt (op_codec o) -> recordable_fill z (op_dtype o) (op_fill o) ->
  Forall (in_life (h_path root) key o) l ->
  let '(t2, a) := history (run_step M) l t1 in
  own_answers l a = snd (history (alone M) (own_calls l) no_files) /\
  dataset_place o t2 /\ same_chunks o (fst (history (alone M) (own_calls l) no_files)) (files_at (op_path o) t2) /\
  forall m, exists o', open_dataset t2 (Handle (h_path root) m) key = Ok o' /\ same_object (with_mode m o) o' /\ same_grid o o'.
Proof. exact (@dataset_life M root key dn sh ch cn op fill delim fmt enc shard t t1 o z l). Qed.
Print Assumptions C91_life.

(** Reading any part of it, after opening it again, gives the array that its writes and
    removals describe; *)
Theorem C91_array M root key dn sh ch cn op fill delim fmt enc t t1 o z l :
  fs_ok t -> key_free key -> options_ok op -> dbl_ok fill ->
  is_zarr_group t (h_path root) = Ok z -> (z = true -> fmt = 2%Z \/ fmt = 3%Z) ->
  create_dataset root key dn sh ch cn op fill delim fmt enc [] t = (t1, Ok o) ->
  recordable_codec z fmt (op_codec o) -> recordable_fill z (op_dtype o) (op_fill o) ->
  (forall x y, same_codec x y -> m_codec M x = m_codec M y) ->
  let d := array_of M o in dataset_ok d -> op_shard o = [] -> Forall (event_ok (h_path root) key o d) l ->
  let t2 := fst (history (run_step M) (map (event_step o) l) t1) in
  forall m, exists o', open_dataset t2 (Handle (h_path root) m) key = Ok o' /\
    forall ov off out, region_ok d off (v_shape ov) -> out_view_ok ov (lenN out) -> exists out',
      snd (tree_call M o' (KReadArray ov off out) t2) = Ok (ACells false out') /\
      holds_region d (apply_ops d (array_ops l) (fun _ => d_fill d)) ov off out out'.
Proof. intros H1 H2 H3 H4 H5 H6 H7 H8 H9 H10. exact (@array_life M root key dn sh ch cn op fill delim fmt enc [] t t1 o z H1 H2 H3 H4 H5 H6 H7 H8 H9 H10 l). Qed.
Print Assumptions C91_array.

(** sharded datasets as well. *)
Theorem C91_sharded M root key dn sh ch cn op fill delim fmt enc shard t t1 o z l sd :
  fs_ok t -> key_free key -> options_ok op -> dbl_ok fill ->
  is_zarr_group t (h_path root) = Ok z -> (z = true -> fmt = 2%Z \/ fmt = 3%Z) ->
  create_dataset root key dn sh ch cn op fill delim fmt enc shard t = (t1, Ok o) ->
  recordable_codec z fmt (op_codec o) -> recordable_fill z (op_dtype o) (op_fill o) ->
  (forall x y, same_codec x y -> m_codec M x = m_codec M y) ->
  op_shard o <> [] -> open_sharded (array_of M o) (op_shard o) = Ok sd -> sharded_ok sd ->
  let d := sd_base sd in Forall (event_ok (h_path root) key o d) l ->
  let t2 := fst (history (run_step M) (map (event_step o) l) t1) in
  forall m, exists o', open_dataset t2 (Handle (h_path root) m) key = Ok o' /\
    forall ov off out, region_ok d off (v_shape ov) -> out_view_ok ov (lenN out) -> exists out',
      snd (tree_call M o' (KReadArray ov off out) t2) = Ok (ACells false out') /\
      holds_region d (apply_ops d (array_ops l) (fun _ => d_fill d)) ov off out out'.
Proof. intros H1 H2 H3 H4 H5 H6 H7 H8 H9 H10. exact (@shard_life M root key dn sh ch cn op fill delim fmt enc shard t t1 o z H1 H2 H3 H4 H5 H6 H7 H8 H9 H10 l sd). Qed.
Print Assumptions C91_sharded.

(** The operations of [Properties_Access.ex_ops] between calls on other nodes. *)
Definition ex_events (o : opened) : list event :=
  EOther ex_group :: map EOp (firstn 2 Properties_Access.ex_ops) ++
  EOther ex_attr :: ELook (with_mode Mode_r o) (KExists [0; 0]) :: EOther ex_data ::
  map EOp (skipn 2 Properties_Access.ex_ops) ++ [EOther ex_rm].
Example C91_case :
  fs_ok (ex_fs true 2) /\ key_free ["x"; "y"]%string /\ dbl_ok ex_seven /\ is_zarr_group (ex_fs true 2) ["f"%string] = Ok true /\
  ex_make true 2 ["x"; "y"]%string [5; 3] [2; 2] ex_seven [] (ex_fs true 2) = (ex_t2, Ok ex_v2) /\
  recordable_codec true 2 (op_codec ex_v2) /\ recordable_fill true (op_dtype ex_v2) (op_fill ex_v2) /\
  Forall (in_life ["f"%string] ["x"; "y"]%string ex_v2) (ex_life ex_v2) /\
  dataset_ok (array_of ex_M ex_v2) /\ Forall (event_ok ["f"%string] ["x"; "y"]%string ex_v2 (array_of ex_M ex_v2)) (ex_events ex_v2) /\
  (let t := fst (history (run_step ex_M) (map (event_step ex_v2) (ex_events ex_v2)) ex_t2) in
   t ["f"; "g"]%string = None /\
   open_dataset t (Handle ["f"%string] Mode_r) ["x"; "y"]%string = Ok (with_mode Mode_r ex_v2) /\
   snd (tree_call ex_M (with_mode Mode_r ex_v2) (KReadArray ex_out [1; 0] (repeat [0; 0] 15)) t) = Ok (ACells false
     [[0;0]; [0;0]; [7;0]; [1;0]; [0;0]; [7;0]; [2;0]; [0;0]; [7;0]; [3;0]; [0;0]; [9;1]; [9;1]; [0;0]; [0;0]])) /\
  fs_ok (ex_fs true 3) /\ is_zarr_group (ex_fs true 3) ["f"%string] = Ok true /\
  ex_make true 3 ["x"; "y"]%string [5; 3] [2; 2] ex_seven [4; 2] (ex_fs true 3) = (ex_t3, Ok ex_v3) /\
  open_sharded (array_of ex_M ex_v3) (op_shard ex_v3) = Ok ex_sharded /\ sharded_ok ex_sharded /\
  Forall (event_ok ["f"%string] ["x"; "y"]%string ex_v3 (sd_base ex_sharded)) (map EOp Properties_Access.ex_ops ++ [EOther ex_rm]) /\
  (let t := fst (history (run_step ex_M) (map (event_step ex_v3) (map EOp Properties_Access.ex_ops ++ [EOther ex_rm])) ex_t3) in
   open_dataset t (Handle ["f"%string] Mode_r) ["x"; "y"]%string = Ok (with_mode Mode_r ex_v3) /\
   snd (tree_call ex_M (with_mode Mode_r ex_v3) (KReadArray ex_out [1; 0] (repeat [0; 0] 15)) t) = Ok (ACells false
     [[0;0]; [0;0]; [7;0]; [1;0]; [0;0]; [7;0]; [2;0]; [0;0]; [7;0]; [3;0]; [0;0]; [9;1]; [9;1]; [0;0]; [0;0]])).
Proof.
  assert (Ops : Forall (array_op_ok (array_of ex_M ex_v2)) Properties_Access.ex_ops) by exact (Properties_Access.ex_ops_ok true).
  assert (Ops3 : Forall (array_op_ok (sd_base ex_sharded)) Properties_Access.ex_ops) by exact ex_sharded_ops.
  pose proof ex_siblings as X. inversion X as [|? ? X1 Y1]; subst. inversion Y1 as [|? ? X2 Y2]; subst. inversion Y2 as [|? ? X3 Y3]; subst. inversion Y3 as [|? ? X4 Y4]; subst.
  split; [apply ex_fs_ok|]. split; [split; discriminate|]. split; [split; [exists 3%positive; now left|repeat split; discriminate]|]. split; [vm_compute; reflexivity|]. split; [exact ex_made2|].
  split; [exact I|]. split; [now left|]. split; [exact ex_life_ok|]. split.
  { destruct ex_zarr_ok as [H1 H2 H3 H4 H5 H6 H7 H8]. split; auto; left; reflexivity. }
  split.
  { unfold ex_events. apply Forall_cons; [exact X1|]. apply Forall_app. split.
    - apply Forall_map. change (Forall (array_op_ok (array_of ex_M ex_v2)) (firstn 2 Properties_Access.ex_ops)). now apply Forall_firstn.
    - apply Forall_cons; [exact X2|]. apply Forall_cons; [split; [exact I|split; [apply ex_grid|reflexivity]]|]. apply Forall_cons; [exact X3|].
      apply Forall_app. split; [apply Forall_map; change (Forall (array_op_ok (array_of ex_M ex_v2)) (skipn 2 Properties_Access.ex_ops)); now apply Forall_skipn|]. apply Forall_cons; [exact X4|constructor]. }
  split; [vm_compute; auto|]. split; [apply ex_fs_ok|]. split; [vm_compute; reflexivity|]. split; [exact ex_made3|].
  split; [vm_compute; reflexivity|]. split; [exact ex_sharded_ok|]. split.
  { apply Forall_app. split; [apply Forall_map; exact Ops3|]. apply Forall_cons; [|constructor]. exact X4. }
  vm_compute. auto.
Qed.
