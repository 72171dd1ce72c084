(** Property C97: direct copies between datasets and arrays in memory. *)
From Coq Require Import ZArith.
From Verif Require Import M_Base M_Text M_Key M_Blocking M_View M_Format M_Mode M_Dataset M_Sharded M_Access M_Python M_PyDirect
  S_Array S_Grid S_Bytes S_Format S_Dataset S_Access S_Sharded S_Python S_PyDirect
  P_Base P_Dataset P_Python P_Python2 P_Python3 P_PyDirect Properties_Dataset Properties_Access Properties_Sharded Properties_Python.
Import List ListNotations.
Local Open Scope list_scope.
Local Open Scope N_scope.

(** C97: after any history of assignments, sub-array, chunk and direct writes to a new
    dataset, ds[index] is what numpy returns for an array with the same assignments, and
    read_direct replaces the selected box of the given array by the selected box of that
    array and nothing else.  Missing: selections with other steps, see
    [C97_step_refuted], and direct writes of boxes of different shapes, see
    [C97_size_refuted]. *)
Theorem C97_copies_partial p ops st : py_dataset_ok p -> can_write (d_mode (pd_base p)) = true ->
  Forall (direct_op_ok (pd_base p)) ops -> new_dataset p st ->
  exists st', run_direct_ops p ops st = (st', PyOk tt) /\
    let a := direct_applies (pd_base p) ops (fun _ => d_fill (pd_base p)) in
    (forall ix ps fresh, np_select (d_shape (pd_base p)) ix = Some ps -> regular_index (d_shape (pd_base p)) ix ->
      small_request (d_chunks (pd_base p)) (np_count ps) -> prod (np_count ps) < W64 -> (forall n, lenN (fresh n) = n) ->
      exists v, py_getitem p fresh ix st' = PyOk v /\ np_value (pd_base p) a ps v) /\
    forall fresh n dest ssel dsel off off' cnt,
      (forall k, lenN (fresh k) = k) -> lenN dest = prod n -> prod n < W64 -> prod cnt < W64 ->
      box_selection ssel (d_shape (pd_base p)) off cnt -> region_ok (pd_base p) off cnt ->
      box_selection dsel n off' cnt -> valid_region n off' cnt ->
      exists dest', py_read_direct p fresh n dest ssel dsel st' = PyOk dest' /\ copied_into (pd_base p) a off n off' cnt dest dest'.
Proof. exact (@direct_history p ops st). Qed.
Print Assumptions C97_copies_partial.

(** C97: read_direct refuses boxes of different shapes, unless numpy repeats the value. *)
Theorem C97_read_refused p ops st : py_dataset_ok p -> can_write (d_mode (pd_base p)) = true ->
  Forall (direct_op_ok (pd_base p)) ops -> new_dataset p st ->
  exists st', run_direct_ops p ops st = (st', PyOk tt) /\
    forall fresh n dest ssel dsel off off' cnt cnt',
      (forall k, lenN (fresh k) = k) -> prod cnt < W64 ->
      box_selection ssel (d_shape (pd_base p)) off cnt -> region_ok (pd_base p) off cnt ->
      box_selection dsel n off' cnt' -> valid_region n off' cnt' -> shapes_clash cnt cnt' ->
      py_read_direct p fresh n dest ssel dsel st' = PyRaise ValueError.
Proof. exact (@direct_clash p ops st). Qed.
Print Assumptions C97_read_refused.

Definition ab (a b : Z) : slice := Slice (Some a) (Some b) None.
Definition abk (a b k : Z) : slice := Slice (Some a) (Some b) (Some k).
Definition ex_fresh (n : N) : list cell := repeat [0; 0] (N.to_nat n).
(** An array of shape (3, 4) with the elements 0, 1, ... *)
Definition ex_array : list cell := map (fun k => [N.of_nat k; 0]) (seq 0 12).
(** ds.write_direct(array, np.s_[1:3, 1:4], np.s_[2:4, 0:3]) after other assignments. *)
Definition ex_direct : list direct_op :=
  map DUsual ex_py_ops ++ [DWrite [3; 4] ex_array (Some [ab 1 3; abk 1 4 1]) (Some [ab 2 4; ab 0 3]) [1; 1] [2; 0] [2; 3]].

Lemma box2 s1 s2 n o1 o2 c1 c2 : axis_slice s1 o1 c1 -> axis_slice s2 o2 c2 -> box_selection (Some [s1; s2]) n [o1; o2] [c1; c2].
Proof.
  intros A1 A2. split; [reflexivity|]. split; [reflexivity|]. intros [|[|k]] s a m H1 H2 H3; cbn in H1, H2, H3.
  - congruence.
  - congruence.
  - destruct k; discriminate.
Qed.
Ltac slices := apply box2; (split; [reflexivity|split; [reflexivity|solve [now left|now right]]]).
Lemma ex_direct_ok k : Forall (direct_op_ok (pd_base (ex_py k))) ex_direct.
Proof.
  apply Forall_app. split; [apply Forall_map; exact (ex_py_ops_ok k)|]. constructor; [|constructor].
  assert (S : d_shape (pd_base (ex_py k)) = [5; 3]) by (destruct k as [|[|k]]; reflexivity).
  assert (C : d_chunks (pd_base (ex_py k)) = [2; 2]) by (destruct k as [|[|k]]; reflexivity).
  assert (T : t_width (d_type (pd_base (ex_py k))) = 2) by (destruct k as [|[|k]]; reflexivity).
  assert (W : 12 < W64) by (rewrite W64_val; reflexivity).
  split; [split; [exact W|rewrite T; split; [reflexivity|]; repeat constructor]|].
  split; [rewrite W64_val; reflexivity|].
  split; [slices|]. split; [repeat constructor; cbn; lia|]. split; [slices|]. unfold region_ok. rewrite S, C. split; repeat constructor; cbn; lia.
Qed.

Example C97_case k :
  py_dataset_ok (ex_py k) /\ can_write (d_mode (pd_base (ex_py k))) = true /\
  Forall (direct_op_ok (pd_base (ex_py k))) ex_direct /\ new_dataset (ex_py k) (fun _ => None) /\
  box_selection (Some [ab 1 5; ab 1 3]) (d_shape (pd_base (ex_py k))) [1; 1] [4; 2] /\ region_ok (pd_base (ex_py k)) [1; 1] [4; 2] /\
  box_selection (Some [ab 0 4; ab 2 4]) [4; 5] [0; 2] [4; 2] /\ valid_region [4; 5] [0; 2] [4; 2] /\
  py_read_direct (ex_py k) ex_fresh [4; 5] (repeat [9; 9] 20) (Some [ab 1 5; ab 1 3]) (Some [ab 0 4; ab 2 4])
    (fst (run_direct_ops (ex_py k) ex_direct (fun _ => None))) =
    PyOk [[9; 9]; [9; 9]; [1; 4]; [1; 0]; [9; 9];
          [9; 9]; [9; 9]; [6; 0]; [7; 0]; [9; 9];
          [9; 9]; [9; 9]; [10; 0]; [11; 0]; [9; 9];
          [9; 9]; [9; 9]; [8; 0]; [7; 0]; [9; 9]].
Proof.
  split; [apply ex_py_ok|]. split; [destruct k as [|[|k]]; reflexivity|]. split; [apply ex_direct_ok|]. split; [apply ex_py_new|].
  split; [slices|]. split; [destruct k as [|[|k]]; repeat constructor; cbn; lia|]. split; [slices|]. split; [repeat constructor; cbn; lia|].
  destruct k as [|[|k]]; vm_compute; reflexivity.
Qed.
Example C97_clash_case : shapes_clash [4; 2] [4; 3] /\
  py_read_direct (ex_py 0) ex_fresh [4; 5] (repeat [9; 9] 20) (Some [ab 1 5; ab 1 3]) (Some [ab 0 4; ab 2 5]) (fun _ => None) = PyRaise ValueError.
Proof.
  split; [|vm_compute; reflexivity]. split; [reflexivity|]. exists 1%nat, 2, 3. repeat split; discriminate.
Qed.

(** C97: write_direct does not look at the size of the selected box of the dataset:
    two rows of the array overwrite two rows of the dataset although one was selected. *)
Theorem C97_size_refuted :
  exists st', py_write_direct (ex_py 0) [3; 4] ex_array (Some [ab 0 2; ab 0 3]) (Some [ab 0 1; ab 0 3]) (fun _ => None) = (st', PyOk tt) /\
    py_getitem (ex_py 0) ex_fresh (ISingle (INum 1%Z)) st' = PyOk (PyArray [3] [[4; 0]; [5; 0]; [6; 0]]) /\
    py_getitem (ex_py 0) ex_fresh (ISingle (INum 1%Z)) (fun _ => None) = PyOk (PyArray [3] [[7; 0]; [7; 0]; [7; 0]]).
Proof. eexists. split; [reflexivity|]. split; vm_compute; reflexivity. Qed.
Print Assumptions C97_size_refuted.

(** C97: steps in the selection of the dataset are ignored: rows 0 and 2 are selected
    for the two rows of the array, and it is refused; with four rows it is accepted and
    the rows 0 to 3 are copied.  A write to rows 0 and 2 changes rows 0 and 1. *)
Theorem C97_step_refuted :
  let st := fst (run_direct_ops (ex_py 0) ex_direct (fun _ => None)) in
  np_get [5; 3] (map (fun k => [N.of_nat k; 0]) (seq 0 15)) [abk 0 4 2; ab 0 3] =
    PyOk ([2; 3], [[0; 0]; [1; 0]; [2; 0]; [6; 0]; [7; 0]; [8; 0]]) /\
  py_read_direct (ex_py 0) ex_fresh [2; 3] (repeat [9; 9] 6) (Some [abk 0 4 2; ab 0 3]) None st = PyRaise ValueError /\
  py_read_direct (ex_py 0) ex_fresh [4; 3] (repeat [9; 9] 12) (Some [abk 0 4 2; ab 0 3]) None st =
    py_read_direct (ex_py 0) ex_fresh [4; 3] (repeat [9; 9] 12) (Some [ab 0 4; ab 0 3]) None st /\
  exists st', py_write_direct (ex_py 0) [3; 4] ex_array (Some [ab 0 2; ab 0 3]) (Some [abk 0 4 2; ab 0 3]) (fun _ => None) = (st', PyOk tt) /\
    py_getitem (ex_py 0) ex_fresh (ISingle (INum 1%Z)) st' = PyOk (PyArray [3] [[4; 0]; [5; 0]; [6; 0]]) /\
    py_getitem (ex_py 0) ex_fresh (ISingle (INum 2%Z)) st' = PyOk (PyArray [3] [[7; 0]; [7; 0]; [7; 0]]).
Proof.
  cbv zeta. split; [vm_compute; reflexivity|]. split; [vm_compute; reflexivity|]. split; [vm_compute; reflexivity|].
  eexists. split; [reflexivity|]. split; vm_compute; reflexivity.
Qed.
Print Assumptions C97_step_refuted.

(** C97: a slice without a start selects from the beginning of an axis, but is refused;
    h5py and numpy take it. *)
Theorem C97_open_slice_refuted :
  np_get [5; 3] (repeat [0; 0] 15) [Slice None (Some 2%Z) None; ab 0 3] = PyOk ([2; 3], repeat [0; 0] 6) /\
  forall fresh dest st, py_read_direct (ex_py 0) fresh [2; 3] dest (Some [Slice None (Some 2%Z) None; ab 0 3]) None st = PyRaise TypeError.
Proof. split; [vm_compute; reflexivity|]. intros. reflexivity. Qed.
Print Assumptions C97_open_slice_refuted.
