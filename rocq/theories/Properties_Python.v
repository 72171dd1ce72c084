(** Properties C55, C56, C60, C68 and C69: the python layer. *)
From Coq Require Import ZArith.
From Verif Require Import M_Base M_Text M_Key M_Blocking M_View M_Format M_Mode M_Dataset M_Sharded M_Access M_Python
  S_Array S_Grid S_Bytes S_Format S_Dataset S_Access S_Sharded S_Python
  P_Base P_Dataset P_Python P_Python2 P_Python3 P_Python4 P_Python5 Properties_Dataset Properties_Access Properties_Sharded.
Import List ListNotations.
Local Open Scope list_scope.
Local Open Scope N_scope.

(** C55: what numpy rejects raises, and for every other index the region and the
    squeezed axes are those of numpy.  Missing: see [C55_int_refuted] and
    [C55_slice_refuted] for the entries that are excluded here. *)
Theorem C55_region_partial sh ix :
  let r := index_to_roi ix (map Z.of_N sh) in
  (np_select sh ix = None -> exists e, r = PyRaise e) /\
  (forall ps, np_select sh ix = Some ps -> regular_index sh ix -> exists roi_begin zn,
     r = PyOk (roi_begin, zn, dropped_axes 0 ps) /\ same_box ps roi_begin zn) /\
  r <> PyUB.
Proof. exact (roi_spec sh ix). Qed.
Print Assumptions C55_region_partial.

Definition ex_index : index := ITuple [ISlice (Some (-3)%Z) (Some 100%Z) None; IEllipsis; INum (-1)%Z].
Definition ex_py (k : nat) : py_dataset :=
  match k with O => PyPlain ex_n5 | S O => PyPlain ex_zarr | _ => PyShards ex_sharded end.
Lemma ex_py_ok k : py_dataset_ok (ex_py k).
Proof. destruct k as [|[|k]]; [exact ex_n5_ok|exact ex_zarr_ok|exact ex_sharded_ok]. Qed.
Lemma ex_py_new k : new_dataset (ex_py k) (fun _ => None).
Proof. destruct k as [|[|k]]; intros c _; reflexivity. Qed.
Lemma ex_index_regular k : regular_index (d_shape (pd_base (ex_py k))) ex_index.
Proof.
  intros l H. destruct k as [|[|k]]; vm_compute in H; injection H as <-; repeat constructor; cbn; lia.
Qed.

Example C55_case :
  np_select [5; 3] ex_index = Some [Pick 2 3 false; Pick 2 1 true] /\ regular_index [5; 3] ex_index /\
  np_select [5; 3] (ITuple [INum 5%Z]) = None /\
  np_select [5; 3] (ITuple [IEllipsis; INum 0%Z; INum 0%Z; INum 0%Z]) = None.
Proof. split; [reflexivity|]. split; [exact (@ex_index_regular 0%nat)|]. split; reflexivity. Qed.

(** C55: numpy accepts the number -n for an axis of length n, z5py makes a negative
    begin of it that the extension module does not take. *)
Theorem C55_int_refuted :
  np_select [5; 3] (ITuple [INum (-5)%Z]) = Some [Pick 0 1 true; Pick 0 3 false] /\
  forall fresh st, py_getitem (PyPlain ex_n5) fresh (ITuple [INum (-5)%Z]) st = PyRaise TypeError.
Proof. split; [reflexivity|]. intros. reflexivity. Qed.
Print Assumptions C55_int_refuted.

(** C55: a slice that starts before the axis selects nothing, numpy cuts it. *)
Theorem C55_slice_refuted :
  np_select [5; 3] (ITuple [ISlice (Some (-6)%Z) (Some 2%Z) None]) = Some [Pick 0 2 false; Pick 0 3 false] /\
  forall fresh st, py_getitem (PyPlain ex_n5) fresh (ITuple [ISlice (Some (-6)%Z) (Some 2%Z) None]) st =
    PyOk (PyArray [0; 3] (fresh 0)).
Proof. split; [reflexivity|]. intros. reflexivity. Qed.
Print Assumptions C55_slice_refuted.

(** C55 and C56: a new dataset, plain or sharded, behaves like a numpy array of fill
    values: after any history of assignments, sub-array and chunk writes, ds[index]
    is what numpy returns for the array with the same assignments. *)
Theorem C55_numpy_partial p ops st : py_dataset_ok p -> can_write (d_mode (pd_base p)) = true ->
  Forall (py_op_ok (pd_base p)) ops -> new_dataset p st ->
  exists st', run_py_ops p ops st = (st', PyOk tt) /\
    forall ix ps fresh, np_select (d_shape (pd_base p)) ix = Some ps -> regular_index (d_shape (pd_base p)) ix ->
      small_request (d_chunks (pd_base p)) (np_count ps) -> prod (np_count ps) < W64 -> (forall n, lenN (fresh n) = n) ->
      exists v, py_getitem p fresh ix st' = PyOk v /\
        np_value (pd_base p) (py_applies (pd_base p) ops (fun _ => d_fill (pd_base p))) ps v.
Proof. exact (@history_theorem p ops st). Qed.
Print Assumptions C55_numpy_partial.

(** ds[1:4, 2] = array of shape (3,); ds[0] = 258; write_subarray; write_chunk. *)
Definition ex_py_ops : list py_op :=
  [PySet (ITuple [ISlice (Some 1%Z) (Some 4%Z) None; INum 2%Z]) (PyArray [3; 1] [[1; 0]; [2; 0]; [3; 0]]);
   PySet (ISingle (INum 0%Z)) (PyScalar [2; 1]);
   PyWrite [3; 0]%Z [2; 2] [[4; 0]; [5; 0]; [6; 0]; [8; 0]];
   PyChunk [0; 0]%Z [[1; 1]; [1; 2]; [1; 3]; [1; 4]]].
Lemma ex_py_ops_ok k : Forall (py_op_ok (pd_base (ex_py k))) ex_py_ops.
Proof.
  assert (B : forall x y : N, x < 256 -> y < 256 -> lenN [x; y] = 2 /\ Forall is_byte [x; y])
    by (intros; repeat constructor; auto).
  assert (W : 6 < W64) by (rewrite W64_val; reflexivity).
  unfold ex_py_ops. repeat apply Forall_cons; try apply Forall_nil.
  - exists [Pick 1 3 false; Pick 2 1 true]. split; [destruct k as [|[|k]]; reflexivity|]. split.
    { intros l H. destruct k as [|[|k]]; vm_compute in H; injection H as <-; repeat constructor; cbn; lia. }
    split; [destruct k as [|[|k]]; repeat constructor; cbn; lia|]. split.
    + split; [cbn; lia|]. destruct k as [|[|k]]; (split; [reflexivity|]); repeat constructor; auto.
    + now left.
  - exists [Pick 0 1 true; Pick 0 3 false]. split; [destruct k as [|[|k]]; reflexivity|]. split.
    { intros l H. destruct k as [|[|k]]; vm_compute in H; injection H as <-; repeat constructor; cbn; lia. }
    split; [destruct k as [|[|k]]; repeat constructor; cbn; lia|]. destruct k as [|[|k]]; now apply B.
  - exists [3; 0]. split; [reflexivity|]. split; [destruct k as [|[|k]]; repeat constructor; cbn; lia|].
    split; [cbn; lia|]. destruct k as [|[|k]]; (split; [reflexivity|]); repeat constructor; auto.
  - exists [0; 0]. split; [reflexivity|]. split; [destruct k as [|[|k]]; repeat constructor; cbn; lia|].
    destruct k as [|[|k]]; (split; [reflexivity|]); repeat constructor; auto.
Qed.
Example C55_numpy_case k :
  py_dataset_ok (ex_py k) /\ can_write (d_mode (pd_base (ex_py k))) = true /\
  Forall (py_op_ok (pd_base (ex_py k))) ex_py_ops /\ new_dataset (ex_py k) (fun _ => None) /\
  regular_index (d_shape (pd_base (ex_py k))) ex_index /\
  (let (st, _) := run_py_ops (ex_py k) ex_py_ops (fun _ => None) in
   py_getitem (ex_py k) (fun n => repeat [0; 0] (N.to_nat n)) ex_index st) =
    PyOk (PyArray [3] [[2; 0]; [3; 0]; [7; 0]]).
Proof.
  split; [apply ex_py_ok|]. split; [destruct k as [|[|k]]; reflexivity|]. split; [apply ex_py_ops_ok|].
  split; [apply ex_py_new|]. split; [apply ex_index_regular|]. destruct k as [|[|k]]; vm_compute; reflexivity.
Qed.

(** C56: an array is rejected without any effect, for a region that is not empty,
    exactly if its shape is not [accepted]; what an accepted array does is part of
    [C55_numpy_partial].  Missing: [accepted] is not the relation of the property,
    see [C56_reorders_refuted] and [C56_ones_refuted]. *)
Theorem C56_rejected_partial p ix ps n data st : np_select (d_shape (pd_base p)) ix = Some ps ->
  regular_index (d_shape (pd_base p)) ix -> Forall (fun k => 0 < k) (np_count ps) -> ~ accepted n (np_count ps) ->
  py_setitem p ix (PyArray n data) st = (st, PyRaise ValueError).
Proof. exact (@setitem_rejects p ix ps n data st). Qed.
Print Assumptions C56_rejected_partial.

(** C56: the shapes of the property are accepted, apart from arrays of one element. *)
Theorem C56_accepted_partial n m : Exists (fun x => x <> 1) n -> same_core n m -> rectify_shape n m = PyOk tt.
Proof. intros E S. apply rectify_exact. right. right. left. now split. Qed.
Print Assumptions C56_accepted_partial.

Example C56_case :
  np_select [5; 3] ex_index = Some [Pick 2 3 false; Pick 2 1 true] /\ ~ accepted [2; 3] [3; 1] /\
  same_core [1; 3] [3; 1] /\ Exists (fun x => x <> 1) [1; 3].
Proof.
  split; [reflexivity|]. split.
  - intros A. apply rectify_exact in A. discriminate A.
  - split; [exists [3], 1%nat, 0%nat, 0%nat, 1%nat; split; reflexivity|]. right. left. discriminate.
Qed.

(** C56: an array of shape (2, 3) is accepted for a region of shape (1, 6). *)
Theorem C56_reorders_refuted :
  ~ same_core [2; 3] [1; 6] /\ rectify_shape [2; 3] [1; 6] = PyOk tt.
Proof.
  split; [|reflexivity]. intros [core [a [b [c [d [E1 E2]]]]]].
  destruct a; [|discriminate E1]. destruct b.
  - cbn in E1. rewrite app_nil_r in E1. subst core. destruct c as [|c]; [discriminate E2|]. destruct c; discriminate E2.
  - assert (X : last [2; 3] 0 = 1); [|discriminate X]. rewrite E1. change (repeat 1 0 ++ core ++ repeat 1 (S b)) with (core ++ repeat 1 (S b)).
    replace (repeat 1 (S b)) with (repeat 1 b ++ [1]) by (clear; induction b; [reflexivity|cbn; f_equal; assumption]).
    rewrite app_assoc. apply last_last.
Qed.
Print Assumptions C56_reorders_refuted.

(** C56: an array of shape (1,) is rejected for a region of shape (1, 1), and so is
    an array without axes. *)
Theorem C56_ones_refuted :
  same_core [1] [1; 1] /\ rectify_shape [1] [1; 1] = PyRaise ValueError /\
  same_core [] [1; 1] /\ rectify_shape [] [1; 1] = PyRaise ValueError.
Proof.
  split; [exists [], 1%nat, 0%nat, 2%nat, 0%nat; split; reflexivity|]. split; [reflexivity|].
  split; [exists [], 0%nat, 0%nat, 2%nat, 0%nat; split; reflexivity|reflexivity].
Qed.
Print Assumptions C56_ones_refuted.

(** C56: for an empty region every array is accepted. *)
Theorem C56_empty_refuted n data st :
  py_setitem (PyPlain ex_n5) (ISingle (ISlice (Some 2%Z) (Some 2%Z) None)) (PyArray n data) st = (st, PyOk tt).
Proof. reflexivity. Qed.
Print Assumptions C56_empty_refuted.

(** C60: for any chunk and any number of elements, write_chunk fails without effect
    if the number does not fit and stores exactly these elements otherwise;
    read_chunk returns exactly the elements of the last call that was accepted, in an
    array that it fills completely. *)
Theorem C60_chunks p l st : py_dataset_ok p -> can_write (d_mode (pd_base p)) = true ->
  Forall (call_ok (pd_base p)) l -> new_dataset p st ->
  exists st', run_chunk_calls p l st =
      (st', map (fun k => if call_fits (pd_base p) k then PyOk tt else PyRaise (CppError ERuntime)) l) /\
    forall c fresh, valid_chunk (d_shape (pd_base p)) (d_chunks (pd_base p)) c ->
      (forall n, buffer_of (t_width (d_type (pd_base p))) n (fresh n)) ->
      py_read_chunk p fresh (map Z.of_N c) st' = PyOk (
        match last_result (pd_base p) (map call_op (filter (call_fits (pd_base p)) l)) c None with
        | None => None
        | Some (vl, data) => Some (if vl then [lenN data] else stored_shape (pd_base p) c, data)
        end).
Proof. exact (@chunk_calls_theorem p l st). Qed.
Print Assumptions C60_chunks.

Definition ex_calls : list chunk_call :=
  [([2; 1], [[1; 0]], false); ([2; 1], [[1; 0]; [2; 0]; [3; 0]; [4; 0]], false); ([0; 1], [[5; 0]; [6; 0]; [8; 0]], true)].
Example C60_case k :
  py_dataset_ok (ex_py k) /\ Forall (call_ok (pd_base (ex_py k))) ex_calls /\
  snd (run_chunk_calls (ex_py 0) ex_calls (fun _ => None)) = [PyOk tt; PyRaise (CppError ERuntime); PyOk tt] /\
  snd (run_chunk_calls (ex_py 1) ex_calls (fun _ => None)) =
    [PyRaise (CppError ERuntime); PyOk tt; PyRaise (CppError ERuntime)] /\
  snd (run_chunk_calls (ex_py 2) ex_calls (fun _ => None)) =
    [PyRaise (CppError ERuntime); PyOk tt; PyRaise (CppError ERuntime)] /\
  (let (st, _) := run_chunk_calls (ex_py 0) ex_calls (fun _ => None) in
   py_read_chunk (ex_py 0) (fun n => repeat [0; 0] (N.to_nat n)) [0; 1]%Z st) =
    PyOk (Some ([3], [[5; 0]; [6; 0]; [8; 0]])).
Proof.
  split; [apply ex_py_ok|]. split; [|split; [|split; [|split]]; vm_compute; reflexivity].
  assert (B : forall x y : N, x < 256 -> y < 256 -> lenN [x; y] = 2 /\ Forall is_byte [x; y])
    by (intros; repeat constructor; auto).
  assert (W : 8 < W64) by (rewrite W64_val; reflexivity).
  assert (K : forall k, d_type (pd_base (ex_py k)) = ElemType 2 false /\ d_shape (pd_base (ex_py k)) = [5; 3] /\
    d_chunks (pd_base (ex_py k)) = [2; 2]) by (intros [|[|n]]; now repeat split).
  assert (G : forall c data vl, valid_chunk [5; 3] [2; 2] c -> lenN data <= 4 ->
    Forall (fun e => lenN e = 2 /\ Forall is_byte e) data -> call_ok (pd_base (ex_py k)) (c, data, vl)).
  { intros c data vl V L F. destruct (K k) as [T [S1 S2]]. unfold call_ok, call_chunk, call_data. cbn [fst snd].
    rewrite T, S1, S2. cbn [t_width]. split; [exact V|]. split; [now split|]. split; [lia|]. split; [lia|]. intros _. left. destruct k as [|[|k]]; reflexivity. }
  unfold ex_calls. repeat apply Forall_cons; try apply Forall_nil; apply G; try (cbn; lia);
    try (repeat apply Forall_cons; try apply Forall_nil; now apply B); vm_compute; discriminate.
Qed.

(** C68: whatever indices and arrays are used for assignments to a new dataset, no
    call has undefined behaviour, an assignment that raises afterwards changes
    nothing, and reading with any index has no undefined behaviour. *)
Theorem C68_items_are_safe p l st : py_dataset_ok p -> can_write (d_mode (pd_base p)) = true -> moderate (pd_base p) ->
  Forall (fun k => value_ok (pd_base p) (snd k)) l -> new_dataset p st ->
  let (st', rs) := run_sets p l st in
  Forall (fun r => r <> PyUB) rs /\
  (forall ix v, value_ok (pd_base p) v ->
     let (st2, r) := py_setitem p ix v st' in r <> PyUB /\ forall e, r = PyRaise e -> st2 = st') /\
  forall ix fresh, (forall n, lenN (fresh n) = n) -> py_getitem p fresh ix st' <> PyUB.
Proof. exact (@safe_theorem p l st). Qed.
Print Assumptions C68_items_are_safe.

Definition ex_sets : list (index * pyvalue) :=
  [(ITuple [INum (-5)%Z], PyScalar [1; 1]); (ex_index, PyArray [3] [[1; 0]; [2; 0]; [3; 0]]);
   (ex_index, PyArray [2] [[1; 0]; [2; 0]]); (ITuple [INum 5%Z], PyScalar [1; 1]);
   (ISingle (ISlice (Some (-6)%Z) None None), PyScalar [1; 1])].
Example C68_case k :
  py_dataset_ok (ex_py k) /\ moderate (pd_base (ex_py k)) /\
  Forall (fun x => value_ok (pd_base (ex_py k)) (snd x)) ex_sets /\
  snd (run_sets (ex_py k) ex_sets (fun _ => None)) =
    [PyRaise TypeError; PyOk tt; PyRaise ValueError; PyRaise ValueError; PyOk tt].
Proof.
  assert (B : forall x y : N, x < 256 -> y < 256 -> lenN [x; y] = 2 /\ Forall is_byte [x; y])
    by (intros; repeat constructor; auto).
  assert (W : 15 < W64) by (rewrite W64_val; reflexivity).
  split; [apply ex_py_ok|]. split; [destruct k as [|[|k]]; (split; [repeat constructor; cbn; lia|exact W])|].
  split; [|destruct k as [|[|k]]; vm_compute; reflexivity].
  unfold ex_sets. repeat apply Forall_cons; try apply Forall_nil; destruct k as [|[|k]]; try (now apply B);
    (split; [cbn; lia|]); (split; [reflexivity|]); repeat constructor; auto.
Qed.

(** C69: positions outside of the dataset are refused without effect.  Missing: the
    lengths of positions are not checked, see [C69_short_refuted], and positions near
    2^64 wrap around, see [C69_wrap_refuted]. *)
Theorem C69_write_partial p start n data st : (length n <= length start)%nat ->
  (forall a e, In (a, e) (combine start n) -> (a + Z.of_N e < Z.of_N W64)%Z) ->
  (forall off, firstn (length n) start = map Z.of_N off -> ~ valid_region (d_shape (pd_base p)) off n) ->
  exists e, py_write_subarray p start n data st = (st, PyRaise e).
Proof. exact (@write_refused p start n data st). Qed.
Print Assumptions C69_write_partial.
Theorem C69_read_partial p fresh start stop st : length start = length stop ->
  (forall a, In a stop -> (a < Z.of_N W64)%Z) ->
  (forall off n, start = map Z.of_N off -> stop = map Z.of_N (vadd off n) -> length n = length off ->
     ~ valid_region (d_shape (pd_base p)) off n) ->
  exists e, py_read_subarray p fresh start stop st = PyRaise e.
Proof. exact (@read_refused p fresh start stop st). Qed.
Print Assumptions C69_read_partial.
Theorem C69_chunk_partial p ids data vl st : py_dataset_ok p -> (length (d_shape (pd_base p)) <= length ids)%nat ->
  (forall c, ids = map Z.of_N c -> ~ valid_chunk (d_shape (pd_base p)) (d_chunks (pd_base p)) c) ->
  exists e, py_write_chunk p ids data vl st = (st, PyRaise e).
Proof. exact (@chunk_refused p ids data vl st). Qed.
Print Assumptions C69_chunk_partial.

Example C69_case k :
  (forall off, firstn 2 [-1; 0]%Z = map Z.of_N off -> ~ valid_region (d_shape (pd_base (ex_py k))) off [2; 3]) /\
  (forall off, firstn 2 [4; 0]%Z = map Z.of_N off -> ~ valid_region (d_shape (pd_base (ex_py k))) off [2; 3]) /\
  (forall c, [0; 2]%Z = map Z.of_N c -> ~ valid_chunk (d_shape (pd_base (ex_py k))) (d_chunks (pd_base (ex_py k))) c).
Proof.
  split; [|split].
  - intros [|x off] H; [discriminate|]. injection H as H _. lia.
  - intros [|x [|y [|z off]]] H; try discriminate. injection H as H1 H2. destruct k as [|[|k]]; cbn; lia.
  - intros [|x [|y [|z off]]] H; try discriminate. injection H as H1 H2. destruct k as [|[|k]]; cbn; lia.
Qed.

(** C69: a position with too few entries is read beyond its end, further entries are
    ignored. *)
Theorem C69_short_refuted :
  (forall st, snd (py_write_subarray (PyPlain ex_n5) [0]%Z [2; 3] (repeat [1; 1] 6) st) = PyUB) /\
  (forall fresh st, py_read_chunk (PyPlain ex_n5) fresh [0]%Z st = PyUB) /\
  (forall st, py_write_subarray (PyPlain ex_n5) [0; 0; -1]%Z [2; 3] (repeat [1; 1] 6) st = (st, PyRaise TypeError)) /\
  snd (py_write_subarray (PyPlain ex_n5) [0; 0; 9]%Z [2; 3] (repeat [1; 1] 6) (fun _ => None)) = PyOk tt.
Proof. split; [reflexivity|]. split; [reflexivity|]. split; [reflexivity|]. vm_compute. reflexivity. Qed.
Print Assumptions C69_short_refuted.

(** C69: the end of a region that starts just below 2^64 wraps around and passes the
    check: a read returns memory that is not initialised, a write leaves the chunk
    buffer. *)
Theorem C69_wrap_refuted :
  py_read_subarray (PyPlain ex_n5) (fun n => repeat [0; 0] (N.to_nat n))
    [18446744073709551615; 0]%Z [18446744073709551617; 3]%Z (fun _ => None) =
    PyOk (PyArray [2; 3] [[7; 0]; [7; 0]; [7; 0]; [0; 0]; [0; 0]; [0; 0]]) /\
  snd (py_write_subarray (PyPlain ex_zarr) [18446744073709551612; 0]%Z [5; 3] (repeat [1; 1] 15) (fun _ => None)) = PyUB.
Proof. split; vm_compute; reflexivity. Qed.
Print Assumptions C69_wrap_refuted.
