(** Property C104: numbers assigned from python. *)
From Coq Require Import ZArith.
From Verif Require Import M_Base M_Text M_Key M_Blocking M_View M_Format M_Mode M_Dataset M_Sharded M_Access M_Double M_Metadata M_Python M_Number
  S_Array S_Grid S_Bytes S_Format S_Dataset S_Access S_Sharded S_Python S_Number
  P_Base P_Dataset P_Python P_Python2 P_Python3 P_Number Properties_Dataset Properties_Access Properties_Sharded Properties_Python.
Import List ListNotations.
Local Open Scope list_scope.
Local Open Scope N_scope.

(** C104: after any history of assignments of numbers that the element type can hold,
    and of all other operations, ds[index] is what numpy returns for the array in which
    each such assignment has stored the number itself; for elements of a floating point
    type the value nearest to the number, of two such values the even one, an infinite
    one beyond the largest (integers are rounded to a double first).  Missing: numbers
    the type cannot hold, see below. *)
Theorem C104_numbers_partial t p ops st : py_dataset_ok p -> can_write (d_mode (pd_base p)) = true ->
  t_width (d_type (pd_base p)) = dtype_size t -> Forall (num_op_ok t (pd_base p)) ops -> new_dataset p st ->
  exists ops' st', Forall2 (means t) ops ops' /\ run_num_ops t p ops st = (st', PyOk tt) /\
    forall ix ps fresh, np_select (d_shape (pd_base p)) ix = Some ps -> regular_index (d_shape (pd_base p)) ix ->
      small_request (d_chunks (pd_base p)) (np_count ps) -> prod (np_count ps) < W64 -> (forall n, lenN (fresh n) = n) ->
      exists v, py_getitem p fresh ix st' = PyOk v /\
        np_value (pd_base p) (py_applies (pd_base p) ops' (fun _ => d_fill (pd_base p))) ps v.
Proof. exact (@number_history t p ops st). Qed.
Print Assumptions C104_numbers_partial.

(** ds[1:4] = -2; ds[0] = np.float32(7.75); ds[...] with an array; ds[2] = True. *)
Definition ex_num_ops : list num_op :=
  [NumSet (ISingle (ISlice (Some 1%Z) (Some 4%Z) None)) (PInt (-2));
   NumSet (ISingle (INum 0%Z)) (PNpFloat (DFin false 31 (-2)));
   OtherOp (PySet (ITuple [ISlice (Some 1%Z) (Some 4%Z) None; INum 2%Z]) (PyArray [3; 1] [[1; 0]; [2; 0]; [3; 0]]));
   NumSet (ISingle (INum 2%Z)) (PIndex 1)].
Example C104_case k : py_dataset_ok (ex_py k) /\ t_width (d_type (pd_base (ex_py k))) = dtype_size DT_int16 /\
  Forall (num_op_ok DT_int16 (pd_base (ex_py k))) ex_num_ops /\ new_dataset (ex_py k) (fun _ => None) /\
  is_number DT_int16 (PInt (-2)) [254; 255] /\ is_number DT_int16 (PNpFloat (DFin false 31 (-2))) [7; 0] /\
  is_number DT_float32 (PFloat (DFin true 3 (-1))) [0; 0; 192; 191] /\ holds DT_float32 (PFloat (DFin true 3 (-1))) /\
  is_number DT_float64 (PInt 1) [0; 0; 0; 0; 0; 0; 240; 63] /\ holds DT_float64 (PInt 1) /\
  is_number DT_complex64 (PComplex (DFin true 3 (-1)) (DInf false)) [0; 0; 192; 191; 0; 0; 128; 127] /\ ~ holds DT_int16 (PInt 32768) /\
  (* 0.1; 2^24 + 1; 2^53 + 1; 1e300 *)
  is_number DT_float32 (PFloat (DFin false 3602879701896397 (-55))) [205; 204; 204; 61] /\
  is_number DT_float32 (PInt 16777217) [0; 0; 128; 75] /\ ~ is_number DT_float32 (PInt 16777217) [1; 0; 128; 75] /\
  is_number DT_float64 (PInt 9007199254740993) [0; 0; 0; 0; 0; 0; 64; 67] /\
  is_number DT_float32 (PInt (10 ^ 300)) [0; 0; 128; 127].
Proof.
  split; [apply ex_py_ok|]. split; [destruct k as [|[|k]]; reflexivity|]. split.
  - unfold ex_num_ops. repeat apply Forall_cons; try apply Forall_nil.
    + split; [exists (-2)%Z; split; [reflexivity|]; cbn; lia|]. exists [Pick 1 3 false; Pick 0 3 false].
      split; [destruct k as [|[|k]]; reflexivity|]. split.
      { intros l H. destruct k as [|[|k]]; vm_compute in H; injection H as <-; repeat constructor; cbn; lia. }
      destruct k as [|[|k]]; repeat constructor; cbn; lia.
    + split; [exists 7%Z; split; [reflexivity|]; cbn; lia|]. exists [Pick 0 1 true; Pick 0 3 false].
      split; [destruct k as [|[|k]]; reflexivity|]. split.
      { intros l H. destruct k as [|[|k]]; vm_compute in H; injection H as <-; repeat constructor; cbn; lia. }
      destruct k as [|[|k]]; repeat constructor; cbn; lia.
    + pose proof (ex_py_ops_ok k) as H. inversion H. assumption.
    + split; [exists 1%Z; split; [reflexivity|]; cbn; lia|]. exists [Pick 2 1 true; Pick 0 3 false].
      split; [destruct k as [|[|k]]; reflexivity|]. split.
      { intros l H. destruct k as [|[|k]]; vm_compute in H; injection H as <-; repeat constructor; cbn; lia. }
      destruct k as [|[|k]]; repeat constructor; cbn; lia.
  - assert (X : forall t v c, holds t v -> scalar_cell t v = PyOk c -> is_number t v c).
    { intros t v c H E. destruct (cell_number H) as (c' & E' & H' & _). rewrite E in E'. now injection E' as ->. }
    assert (F : holds DT_float32 (PFloat (DFin true 3 (-1)))).
    { exists (DFin true 3 (-1)). split; [reflexivity|]. cbn. repeat split; try lia. now exists 1%Z. }
    assert (I : forall t z, real_type t <> None -> (0 < z < 2 ^ 1000)%Z -> holds t (PInt z)).
    { intros t z T Z. destruct z as [|m|m]; try lia. assert (H : exists x, is_real (PInt (Zpos m)) x /\ for_double (PInt (Zpos m)) x).
      { exists (DFin false m 0). split; [reflexivity|]. cbn [for_double too_large]. change (2 ^ (11 - 1) - 52 - 2)%Z with 970%Z.
        change (Z.min 0 970) with 0%Z. change (2 ^ (0 - 0))%Z with 1%Z. assert ((2 ^ 1000 < (2 ^ (52 + 2) - 1) * 2 ^ (970 - 0))%Z) by reflexivity. lia. }
      destruct t; try contradiction; exact H. }
    split; [apply ex_py_new|]. split; [split; reflexivity|]. split; [split; reflexivity|]. split; [now apply X|]. split; [exact F|].
    split; [apply X; [apply I; [discriminate|lia]|vm_compute; reflexivity]|]. split; [apply I; [discriminate|lia]|].
    split; [apply X; [|vm_compute; reflexivity]|].
    { exists (DFin true 3 (-1)), (DInf false). split; [split; reflexivity|]. split; [|exact Logic.I]. cbn. repeat split; try lia. now exists 1%Z. }
    split; [intros (z & [= <-] & H); cbn in H; lia|].
    split; [apply X; [|vm_compute; reflexivity]|].
    { exists (DFin false 3602879701896397 (-55)). split; [reflexivity|]. cbn. repeat split; try lia. now exists 1801439850948198%Z. }
    split; [apply X; [apply I; [discriminate|lia]|vm_compute; reflexivity]|].
    split.
    { intros (_ & x & Hx & d & R1 & R2). cbn [is_real] in Hx. subst x.
      change (real_value 23 8 [1; 0; 128; 75]) with (DFin false 8388609 1) in R2.
      assert (D : d = DFin false 16777217 0).
      { cbn [rounded] in R1. destruct R1 as [[T _]|(_ & S & F2 & Fin & N)]; [vm_compute in T; now destruct T|].
        assert (G : in_format 52 11 (DFin false 16777217 0)) by (cbn; repeat split; try lia; now exists 8388608%Z).
        destruct d as [| |s|s m e]; try contradiction.
        - destruct (N (DFin false 16777217 0) 0%Z G Logic.I) as [L _]; [cbn; lia|exact Logic.I|cbn; lia|]. vm_compute in L. now destruct L.
        - cbn [has_sign] in S. subst s. destruct (N (DFin false 16777217 0) (Z.min 0 e) G Logic.I) as [L _]; [cbn; lia|cbn; lia|cbn; lia|].
          rewrite Z.sub_diag in L. change (Z.abs 0) with 0%Z in L. cbn [at_scale] in L.
          destruct F2 as (O & _). destruct (Z.le_gt_cases 0 e) as [C|C].
          + rewrite Z.min_l, !Z.sub_0_r in L by lia. destruct (Z.eq_dec e 0) as [->|C0]; [change (2 ^ 0)%Z with 1%Z in L; f_equal; lia|exfalso].
            replace e with (1 + (e - 1))%Z in L by lia. rewrite Z.pow_add_r in L by lia. change (2 ^ 1)%Z with 2%Z in L. lia.
          + exfalso. rewrite Z.min_r, Z.sub_diag in L by lia. change (2 ^ 0)%Z with 1%Z in L. replace (0 - e)%Z with (1 + (- e - 1))%Z in L by lia.
            rewrite Z.pow_add_r in L by lia. change (2 ^ 1)%Z with 2%Z in L. destruct O as [o O]. lia. }
      subst d. cbn [rounded] in R2. destruct R2 as [[_ R2]|(_ & _ & _ & _ & N)]; [discriminate|].
      destruct (N (DFin false 1 24) 0%Z) as [_ T]; [cbn; repeat split; try lia; now exists 0%Z|exact Logic.I|cbn; lia|cbn; lia|cbn; lia|].
      specialize (T Logic.eq_refl). destruct T as [T|T]; vm_compute in T; discriminate T. }
    split; apply X; try (apply I; [discriminate|]; vm_compute; split; reflexivity); vm_compute; reflexivity.
Qed.

(** C104: complex numbers are refused by all other types, nothing is stored. *)
Theorem C104_complex t p ix ps re im st : integer_type t <> None \/ real_type t <> None ->
  np_select (d_shape (pd_base p)) ix = Some ps -> regular_index (d_shape (pd_base p)) ix ->
  Forall (fun k => 0 < k) (np_count ps) -> exists e, py_set_number t p ix (PComplex re im) st = (st, PyRaise e).
Proof. intros T S R Z. exact (@number_fails t p ix ps _ st S R Z (complex_cell re im T)). Qed.
Print Assumptions C104_complex.
Example C104_complex_case : np_select [5; 3] ex_index = Some [Pick 2 3 false; Pick 2 1 true] /\ regular_index [5; 3] ex_index /\
  integer_type DT_uint8 <> None.
Proof. split; [reflexivity|]. split; [exact (@ex_index_regular 0%nat)|discriminate]. Qed.

(** C104: integers too large for a double are refused by elements of a floating point
    type, nothing is stored. *)
Theorem C104_large t p ix ps v z st : real_type t <> None \/ complex_type t <> None ->
  v = PInt z \/ v = PIndex z -> (forall x, is_real v x -> too_large 52 11 x) ->
  np_select (d_shape (pd_base p)) ix = Some ps -> regular_index (d_shape (pd_base p)) ix ->
  Forall (fun k => 0 < k) (np_count ps) -> exists e, py_set_number t p ix v st = (st, PyRaise e).
Proof. intros T V H S R Z. exact (@number_fails t p ix ps _ st S R Z (large_cell T V H)). Qed.
Print Assumptions C104_large.
Example C104_large_case : (forall x, is_real (PInt (- 2 ^ 1024)) x -> too_large 52 11 x) /\
  (forall x, is_real (PInt (2 ^ 1024 - 2 ^ 970 - 1)) x -> ~ too_large 52 11 x).
Proof.
  split; intros x Hx; change x with (id x); rewrite Hx; clear; cbn [id].
  - vm_compute. discriminate.
  - vm_compute. intros H. now apply H.
Qed.

(** C104: integers that a 64 bit integer of the same sign can hold are stored modulo
    2^width by the smaller types; no error is raised. *)
Theorem C104_modulo t signed p ix z st : integer_type t = Some signed ->
  (if signed then - 2 ^ 63 <= z < 2 ^ 63 else 0 <= z < 2 ^ 64)%Z ->
  exists c k, lenN c = dtype_size t /\ integer_value signed c = (z + k * 2 ^ (8 * Z.of_N (dtype_size t)))%Z /\
    py_set_number t p ix (PInt z) st = py_setitem p ix (PyScalar c) st /\
    py_set_number t p ix (PIndex z) st = py_setitem p ix (PyScalar c) st.
Proof.
  intros T H. destruct (cell_modulo T H) as (c & k & E1 & E2 & L & E). exists c, k. split; [exact L|]. split; [exact E|].
  split; now apply set_number_cell.
Qed.
Print Assumptions C104_modulo.

(** C104: 70000 assigned to elements of type int16 is neither stored nor refused. *)
Theorem C104_range_refuted :
  exists st', py_set_number DT_int16 (PyPlain ex_zarr) (ISingle (INum 0%Z)) (PInt 70000) (fun _ => None) = (st', PyOk tt) /\
    py_getitem (PyPlain ex_zarr) (fun n => repeat [0; 0] (N.to_nat n)) (ITuple [INum 0%Z; INum 1%Z]) st' = PyOk (PyScalar [112; 17]) /\
    integer_value true [112; 17] = 4464%Z.
Proof.
  destruct (py_set_number DT_int16 (PyPlain ex_zarr) (ISingle (INum 0%Z)) (PInt 70000) (fun _ => None)) as [st' r] eqn:E.
  exists st'.
  assert (R : r = PyOk tt) by (change r with (snd (st', r)); rewrite <- E; vm_compute; reflexivity). subst r. split; [reflexivity|].
  split; [|reflexivity]. change st' with (fst (st', PyOk tt)). rewrite <- E. vm_compute. reflexivity.
Qed.
Print Assumptions C104_range_refuted.

(** C104: for a negative number and elements of an unsigned type the double is cast to
    that type, which is undefined; an array of such numbers is stored modulo 2^width. *)
Theorem C104_negative_refuted :
  (forall t z st, integer_type t = Some false -> (- 2 ^ 1023 <= z < 0)%Z ->
     py_set_number t (PyPlain ex_zarr) (ISingle (INum 0%Z)) (PInt z) st = (st, PyUB)) /\
  exists st', py_set_integers DT_uint16 (PyPlain ex_zarr) (ITuple [INum 0%Z; INum 0%Z]) [1; 1] [-1]%Z (fun _ => None) = (st', PyOk tt) /\
    py_getitem (PyPlain ex_zarr) (fun n => repeat [0; 0] (N.to_nat n)) (ITuple [INum 0%Z; INum 0%Z]) st' = PyOk (PyScalar [255; 255]).
Proof.
  split.
  - intros t z st T H. unfold py_set_number. cbn [index_to_roi]. change (map Z.of_N (d_shape (pd_base (PyPlain ex_zarr)))) with [5; 3]%Z.
    change (index_to_roi (ISingle (INum 0%Z)) [5; 3]%Z) with (PyOk ([Some 0; Some 0]%Z, [1; 3]%Z, [0%nat])).
    change (existsb (Z.eqb 0) [1; 3]%Z) with false. cbv iota. change (to_sizes [Some 0; Some 0]%Z) with (PyOk [0; 0]).
    change (to_sizes (map Some [1; 3]%Z)) with (PyOk [1; 3]). cbn [pbind]. now rewrite negative_cell.
  - destruct (py_set_integers DT_uint16 (PyPlain ex_zarr) (ITuple [INum 0%Z; INum 0%Z]) [1; 1] [-1]%Z (fun _ => None)) as [st' r] eqn:E.
    exists st'.
    assert (R : r = PyOk tt) by (change r with (snd (st', r)); rewrite <- E; vm_compute; reflexivity). subst r. split; [reflexivity|].
    change st' with (fst (st', PyOk tt)). rewrite <- E. vm_compute. reflexivity.
Qed.
Print Assumptions C104_negative_refuted.

(** C104: a float outside of the range, or NaN, is cast to the type of the elements,
    which is undefined, too; a floating point scalar of numpy is stored modulo 2^width. *)
Theorem C104_float_refuted st :
  py_set_number DT_int16 (PyPlain ex_zarr) (ISingle (INum 0%Z)) (PFloat DNan) st = (st, PyUB) /\
  py_set_number DT_int16 (PyPlain ex_zarr) (ISingle (INum 0%Z)) (PFloat (DFin false 4375 4)) st = (st, PyUB) /\
  py_set_number DT_int16 (PyPlain ex_zarr) (ISingle (INum 0%Z)) (PNpFloat (DFin false 4375 4)) st =
    py_set_number DT_int16 (PyPlain ex_zarr) (ISingle (INum 0%Z)) (PInt 4464) st /\
  whole (PFloat (DFin false 4375 4)) = Some 70000%Z.
Proof. split; [reflexivity|]. split; [reflexivity|]. split; [|reflexivity]. reflexivity. Qed.
Print Assumptions C104_float_refuted.

(** C104: -2^63 - 1 is no 64 bit integer, but its double is -2^63, and this is stored. *)
Theorem C104_least_refuted p ix st :
  py_set_number DT_int64 p ix (PInt (- 2 ^ 63 - 1)) st = py_set_number DT_int64 p ix (PInt (- 2 ^ 63)) st.
Proof.
  assert (E : scalar_cell DT_int64 (PInt (- 2 ^ 63 - 1)) = scalar_cell DT_int64 (PInt (- 2 ^ 63))) by (vm_compute; reflexivity).
  unfold py_set_number. now rewrite E.
Qed.
Print Assumptions C104_least_refuted.
