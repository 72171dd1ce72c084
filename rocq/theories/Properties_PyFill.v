(** Property C106: fill values given from python. *)
From Coq Require Import ZArith String.
From Verif Require Import M_Base M_Bytes M_Format M_Mode M_Dataset M_Sharded M_Access M_Double M_Json M_Metadata M_Fs M_Container M_Number
  S_Array S_Grid S_Bytes S_Dataset S_Access S_Metadata S_Container S_Number P_Base P_Round P_Number
  M_Python S_Python P_Python3 P_Container P_Container2 P_Container3 Properties_Container M_PyGroup S_PyGroup P_PyGroup P_PyGroup2 P_PyGroup5
  Properties_PyGroup M_PyFill S_PyFill P_PyFill.
Import List ListNotations.
Local Open Scope list_scope.
Local Open Scope N_scope.

(** C106: the fill value of a dataset made with create_dataset(..., fillvalue=v) is the
    number v: for floating point elements (rounded to the nearest one), and for elements
    that are integers if v is a double; else it is the double next to v.  Missing: other
    integers, see below. *)
Theorem C106_fill_partial g key v a s s' d z : key <> [] -> Forall usable key ->
  fs_ok s -> s (h_path (pg_handle g)) = Some NDir -> uniform s (h_path (pg_handle g)) z key ->
  well_formed v -> py_create_number g (name_of key) v a s = (s', Ok d) ->
  let t := op_dtype (pd_impl d) in let c := fill_cell t (op_fill (pd_impl d)) in
  (exists x y, is_real v x /\ rounded 52 11 x y /\ is_number t (PFloat y) c) /\
  (integer_type t = None \/ exact_double v -> is_number t v c).
Proof. exact (@create_fill g key v a s s' d z). Qed.
Print Assumptions C106_fill_partial.

(** The dataset found under that name later on has the same fill value, if the format
    can record it (n5 cannot), *)
Theorem C106_found_partial g key v a s s' d z : key <> [] -> Forall usable key ->
  fs_ok s -> s (h_path (pg_handle g)) = Some NDir -> uniform s (h_path (pg_handle g)) z key ->
  well_formed v -> py_create_number g (name_of key) v a s = (s', Ok d) ->
  recordable_codec z (dataset_format (format_of z (pg_format g))) (op_codec (pd_impl d)) ->
  recordable_fill z (op_dtype (pd_impl d)) (op_fill (pd_impl d)) ->
  exists d', M_PyGroup.py_getitem s' g (name_of key) = Ok (PDataset d') /\
    op_dtype (pd_impl d') = op_dtype (pd_impl d) /\ op_fill (pd_impl d') = op_fill (pd_impl d).
Proof.
  intros N U F D UN W R RC RF. destruct (load_double v) as [y|] eqn:L.
  - rewrite (create_number g (name_of key) a L) in R. destruct (load_some W L) as (x & Rx & Ry & Fy).
    destruct (@create_dataset_made g key (with_fill a y) s s' d z N U F D UN (format_ok Fy) R RC RF) as [_ _ (d' & G & S) _ _ _].
    exists d'. split; [exact G|]. split; [apply S|apply S].
  - exfalso. exact (proj1 (@refused g key v a s L F) s' d R).
Qed.
Print Assumptions C106_found_partial.

(** and as long as nothing was written to it, ds[index] has the fill value everywhere. *)
Theorem C106_new T C o p st : python_object T C o p -> py_dataset_ok p -> can_write (d_mode (pd_base p)) = true -> new_dataset p st ->
  forall ix ps fresh, np_select (d_shape (pd_base p)) ix = Some ps -> regular_index (d_shape (pd_base p)) ix ->
    small_request (d_chunks (pd_base p)) (np_count ps) -> prod (np_count ps) < W64 -> (forall n, lenN (fresh n) = n) ->
    exists v, M_Python.py_getitem p fresh ix st = PyOk v /\
      np_value (pd_base p) (fun _ => fill_cell (op_dtype o) (op_fill o)) ps v.
Proof. intros O K W N. rewrite <- (object_fill O). exact (@new_reads p st K W N). Qed.
Print Assumptions C106_new.

(** C106: complex numbers and integers too large for a double are refused; there is no
    dataset, and nothing has changed if the name has no "/". *)
Theorem C106_refused g key v a s : fs_ok s -> (exists re im, v = PComplex re im) \/
    (exists z, v = PInt z \/ v = PIndex z) /\ (forall x, is_real v x -> too_large 52 11 x) ->
  (forall s' d, py_create_number g (name_of key) v a s <> (s', Ok d)) /\
  (forall x, key = [x] -> usable x -> exists e, py_create_number g (name_of key) v a s = (s, Throw e)).
Proof.
  intros F [(re & im & ->)|((z & V) & H)]; apply refused; try exact F; [reflexivity|exact (load_large V H)].
Qed.
Print Assumptions C106_refused.

Definition ex_typed (ty : string) : ds_args := DsArgs (Some [4; 6]) (Some ty) None (Some [2; 3]) None (DZero false) None "default" [].
Example C106_case f :
  uniform (ex_file f) ["f"%string] (zarr_of f) ["a"; "b"]%string /\
  (exists s' d, py_create_number (ex_pg (ex_n f)) (name_of ["a"; "b"]%string) (PFloat (DFin false 3602879701896397 (-55))) (ex_typed "float32") (ex_file f) = (s', Ok d) /\
    recordable_codec (zarr_of f) (dataset_format (format_of (zarr_of f) (ex_n f))) (op_codec (pd_impl d)) /\
    fill_cell (op_dtype (pd_impl d)) (op_fill (pd_impl d)) = [205; 204; 204; 61]) /\
  (exists s' d, py_create_number (ex_pg (ex_n f)) (name_of ["a"; "b"]%string) (PInt (- 2 ^ 63)) (ex_typed "int64") (ex_file f) = (s', Ok d) /\
    fill_cell (op_dtype (pd_impl d)) (op_fill (pd_impl d)) = [0; 0; 0; 0; 0; 0; 0; 128]) /\
  exact_double (PInt (- 2 ^ 63)) /\ well_formed (PFloat (DFin false 3602879701896397 (-55))).
Proof.
  split; [apply ex_uniform|]. split; [apply after_ok; destruct f; vm_compute; intuition (discriminate || reflexivity || lia)|].
  split; [apply after_ok; destruct f; vm_compute; reflexivity|]. split; [exists (-1)%Z, 63%Z; lia|].
  cbn. repeat split; try lia. now exists 1801439850948198%Z.
Qed.

(** C106: 2^53 + 1 and 2^62 + 1 for int64 become 2^53 and 2^62; *)
Theorem C106_integer_refuted f :
  (exists s' d, py_create_number (ex_pg (ex_n f)) "x" (PInt (2 ^ 53 + 1)) (ex_typed "int64") (ex_file f) = (s', Ok d) /\
    integer_value true (fill_cell (op_dtype (pd_impl d)) (op_fill (pd_impl d))) = (2 ^ 53)%Z) /\
  (exists s' d, py_create_number (ex_pg (ex_n f)) "x" (PInt (2 ^ 62 + 1)) (ex_typed "int64") (ex_file f) = (s', Ok d) /\
    integer_value true (fill_cell (op_dtype (pd_impl d)) (op_fill (pd_impl d))) = (2 ^ 62)%Z).
Proof. split; apply after_ok; destruct f; vm_compute; reflexivity. Qed.
Print Assumptions C106_integer_refuted.

(** the largest values of the 64 bit types, and every number that is out of the range of
    the type, are undefined behaviour, *)
Theorem C106_range_refuted f :
  snd (py_create_number (ex_pg (ex_n f)) "x" (PInt (2 ^ 64 - 1)) (ex_typed "uint64") (ex_file f)) = UB /\
  snd (py_create_number (ex_pg (ex_n f)) "x" (PInt (2 ^ 63 - 1)) (ex_typed "int64") (ex_file f)) = UB /\
  snd (py_create_number (ex_pg (ex_n f)) "x" (PInt (-1)) (ex_typed "uint8") (ex_file f)) = UB /\
  snd (py_create_number (ex_pg (ex_n f)) "x" (PFloat DNan) (ex_typed "int16") (ex_file f)) = UB.
Proof. destruct f; vm_compute; repeat split; reflexivity. Qed.
Print Assumptions C106_range_refuted.

(** and a refused number leaves the groups of the name behind. *)
Theorem C106_groups_refuted f :
  exists s' e, py_create_number (ex_pg (ex_n f)) (name_of ["a"; "b"]%string) (PComplex (DZero false) (DZero false)) (ex_typed "uint8") (ex_file f) = (s', Throw e) /\
    ex_file f ["f"; "a"]%string = None /\ s' ["f"; "a"]%string = Some NDir.
Proof.
  destruct (py_create_number (ex_pg (ex_n f)) (name_of ["a"; "b"]%string) (PComplex (DZero false) (DZero false)) (ex_typed "uint8") (ex_file f)) as [s' r] eqn:E.
  exists s', EInvalidArgument. assert (R : r = Throw EInvalidArgument) by (change r with (snd (s', r)); rewrite <- E; destruct f; vm_compute; reflexivity).
  subst r. split; [reflexivity|]. split; [destruct f; vm_compute; reflexivity|]. change s' with (fst (s', @Throw pydataset EInvalidArgument)). rewrite <- E. destruct f; vm_compute; reflexivity.
Qed.
Print Assumptions C106_groups_refuted.
