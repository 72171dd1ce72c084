(** Properties C28, C30, C31 and C33 of plain datasets. *)
From Verif Require Import M_Base M_Text M_Key M_Blocking M_View M_Bytes M_N5Header M_Format M_Mode M_Dataset M_Access
  S_Array S_Grid S_Bytes S_Text S_Format S_Dataset S_Access
  P_Base P_Blocking P_Roi P_View P_Bytes P_Key P_Format P_Dataset P_Access P_Read P_History Properties_Dataset.
Import List ListNotations.
Local Open Scope list_scope.
Local Open Scope N_scope.

(** C30: a zarr dataset behaves like an n-dimensional array.  After any history of
    sub-array, scalar and single chunk writes and removals every read returns for
    each element what an array would hold, leaves the rest of the output buffer
    alone, and keys that are not chunks are untouched. *)
Theorem C30_zarr_array d ops st : dataset_ok d -> d_zarr d = true ->
  can_write (d_mode d) = true -> Forall (array_op_ok d) ops ->
  (forall c, valid_chunk (d_shape d) (d_chunks d) c -> st (chunk_key (d_key d) c) = None) ->
  exists st', run_array_ops d ops st = (st', Ok tt) /\
    (forall ov off out, region_ok d off (v_shape ov) -> out_view_ok ov (lenN out) ->
      exists out', read_subarray d st' ov off out = Ok out' /\ lenN out' = lenN out /\
        (forall i, in_shape (v_shape ov) i -> exists v,
           getN out' (v_off ov + lin (v_strides ov) i) = Ok v /\
           same_value d v (apply_ops d ops (fun _ => d_fill d) (vadd off i)) /\
           (t_float (d_type d) = false -> v = apply_ops d ops (fun _ => d_fill d) (vadd off i))) /\
        (forall a, (forall i, in_shape (v_shape ov) i -> a <> v_off ov + lin (v_strides ov) i) ->
           getN out' a = getN out a)) /\
    (forall k, (forall c, valid_chunk (d_shape d) (d_chunks d) c -> k <> chunk_key (d_key d) c) ->
       st' k = st k).
Proof. intros H _. exact (array_theorem H (ops := ops) (st := st)). Qed.
Print Assumptions C30_zarr_array.

(** C31: the same for n5. *)
Theorem C31_n5_array d ops st : dataset_ok d -> d_zarr d = false ->
  can_write (d_mode d) = true -> Forall (array_op_ok d) ops ->
  (forall c, valid_chunk (d_shape d) (d_chunks d) c -> st (chunk_key (d_key d) c) = None) ->
  exists st', run_array_ops d ops st = (st', Ok tt) /\
    (forall ov off out, region_ok d off (v_shape ov) -> out_view_ok ov (lenN out) ->
      exists out', read_subarray d st' ov off out = Ok out' /\ lenN out' = lenN out /\
        (forall i, in_shape (v_shape ov) i -> exists v,
           getN out' (v_off ov + lin (v_strides ov) i) = Ok v /\
           same_value d v (apply_ops d ops (fun _ => d_fill d) (vadd off i)) /\
           (t_float (d_type d) = false -> v = apply_ops d ops (fun _ => d_fill d) (vadd off i))) /\
        (forall a, (forall i, in_shape (v_shape ov) i -> a <> v_off ov + lin (v_strides ov) i) ->
           getN out' a = getN out a)) /\
    (forall k, (forall c, valid_chunk (d_shape d) (d_chunks d) c -> k <> chunk_key (d_key d) c) ->
       st' k = st k).
Proof. intros H _. exact (array_theorem H (ops := ops) (st := st)). Qed.
Print Assumptions C31_n5_array.

(** A 5 x 3 zarr dataset of 16 bit values with 2 x 2 chunks. *)
Definition ex_zarr : dataset :=
  Dataset [5; 3] [2; 2] (KeyConfig true "." 2 "default") (ElemType 2 false) [7; 0] raw_codec Mode_a.
Lemma ex_zarr_ok : dataset_ok ex_zarr.
Proof.
  split.
  - split; [discriminate|]. cbn. rewrite W64_val. lia.
  - reflexivity.
  - rewrite W64_val. reflexivity.
  - split; [reflexivity|]. repeat constructor.
  - left. reflexivity.
  - reflexivity.
  - right. reflexivity.
  - discriminate.
Qed.

(** Writes of a transposed 3 x 2 view and of a scalar, a chunk write and a removal;
    [ex_out] reads with a padded output. *)
Definition ex_ops : list array_op :=
  [AWrite [1; 1] [3; 2] (FromView (View 1 [3; 2] [1; 3]) [[0; 0]; [1; 0]; [2; 0]; [3; 0]; [4; 0]; [5; 0]; [6; 0]]);
   AWrite [4; 0] [1; 2] (FromScalar [9; 1]); ARemove [0; 1]; AWrite [0; 0] [1; 1] (FromScalar [8; 0])].
Definition ex_out : view := View 2 [4; 2] [3; 1].

Lemma ex_ops_ok z : Forall (array_op_ok (Dataset [5; 3] [2; 2] (KeyConfig z "." 2 "default") (ElemType 2 false) [7; 0] raw_codec Mode_a)) ex_ops.
Proof.
  assert (B : forall x y : N, x < 256 -> y < 256 -> lenN [x; y] = 2 /\ Forall is_byte [x; y])
    by (intros; repeat constructor; auto).
  unfold ex_ops. apply Forall_cons; [|apply Forall_cons; [|apply Forall_cons; [|apply Forall_cons; [|constructor]]]].
  - cbn [array_op_ok]. split; [split; cbn; lia|]. cbn [source_ok t_width d_type]. split; [reflexivity|]. split; [reflexivity|]. split.
    + intros i Hi. inversion Hi as [|x0 ? ? ? H1 Hi']; subst. inversion Hi' as [|x1 ? ? ? H2 Hi2]; subst.
      inversion Hi2; subst. cbn [lin v_off v_strides ex_out]. change (lenN _) with 7. lia.
    + repeat (apply Forall_cons; [apply B; lia|]). constructor.
  - cbn [array_op_ok]. split; [split; cbn; lia|]. apply B; lia.
  - cbn. lia.
  - cbn [array_op_ok]. split; [split; cbn; lia|]. apply B; lia.
Qed.
Lemma ex_out_ok : out_view_ok ex_out 15.
Proof.
  split; [reflexivity|]. split.
  - intros i Hi. inversion Hi as [|x0 ? ? ? H1 Hi']; subst. inversion Hi' as [|x1 ? ? ? H2 Hi2]; subst.
    inversion Hi2; subst. cbn [lin v_off v_strides ex_out]. lia.
  - intros i j Hi Hj. inversion Hi as [|x0 ? ? ? H1 Hi']; subst. inversion Hi' as [|x1 ? ? ? H2 Hi2]; subst.
    inversion Hi2; subst. inversion Hj as [|y0 ? ? ? G1 Hj']; subst. inversion Hj' as [|y1 ? ? ? G2 Hj2]; subst.
    inversion Hj2; subst. cbn [lin v_off v_strides ex_out]. intros E. do 2 f_equal; lia.
Qed.

Example C30_case :
  dataset_ok ex_zarr /\ Forall (array_op_ok ex_zarr) ex_ops /\
  region_ok ex_zarr [1; 0] (v_shape ex_out) /\ out_view_ok ex_out 15 /\
  apply_ops ex_zarr ex_ops (fun _ => d_fill ex_zarr) [3; 2] = [6; 0] /\
  apply_ops ex_zarr ex_ops (fun _ => d_fill ex_zarr) [1; 2] = [7; 0] /\
  (let (st, _) := run_array_ops ex_zarr ex_ops (fun _ => None) in
   read_subarray ex_zarr st ex_out [1; 0] (repeat [0; 0] 15)) =
    Ok [[0;0]; [0;0]; [7;0]; [1;0]; [0;0]; [7;0]; [2;0]; [0;0]; [7;0]; [3;0]; [0;0]; [9;1]; [9;1]; [0;0]; [0;0]].
Proof.
  split; [exact ex_zarr_ok|]. split; [apply ex_ops_ok|]. split; [repeat constructor; cbn; lia|].
  split; [exact ex_out_ok|]. split; [reflexivity|]. split; [reflexivity|]. vm_compute. reflexivity.
Qed.
Example C31_case :
  dataset_ok ex_n5 /\ Forall (array_op_ok ex_n5) ex_ops /\
  (let (st, _) := run_array_ops ex_n5 ex_ops (fun _ => None) in
   read_subarray ex_n5 st ex_out [1; 0] (repeat [0; 0] 15)) =
    Ok [[0;0]; [0;0]; [7;0]; [1;0]; [0;0]; [7;0]; [2;0]; [0;0]; [7;0]; [3;0]; [0;0]; [9;1]; [9;1]; [0;0]; [0;0]].
Proof. split; [exact ex_n5_ok|]. split; [apply ex_ops_ok|]. vm_compute. reflexivity. Qed.

(** C33, plain datasets: on every store - also a damaged one - a scalar write and
    the write of a constant array end in the same store with the same outcome. *)
Theorem C33_scalar_plain d off n src x : dataset_ok d -> region_ok d off n -> const_source n src x ->
  forall st, write_request d src off n st = write_request d (FromScalar x) off n st.
Proof. intros H. exact (scalar_plain H (off := off) (n := n) (src := src) (x := x)). Qed.
Print Assumptions C33_scalar_plain.

Example C33_case :
  dataset_ok ex_n5 /\ region_ok ex_n5 [1; 1] [3; 2] /\
  const_source [3; 2] (FromView (View 0 [3; 2] [0; 1]) [[9; 1]; [9; 1]]) [9; 1].
Proof.
  split; [exact ex_n5_ok|]. split; [repeat constructor; cbn; lia|]. split; [reflexivity|]. split; [reflexivity|].
  intros i Hi. inversion Hi as [|x0 ? ? ? H1 Hi']; subst. inversion Hi' as [|x1 ? ? ? H2 Hi2]; subst.
  inversion Hi2; subst. cbn. assert (x1 = 0 \/ x1 = 1) as [-> | ->] by lia; rewrite N.mul_0_r; reflexivity.
Qed.

(** C28, plain datasets: no history of calls with any arguments changes a file, and
    every call fails. *)
Theorem C28_readonly_plain d calls st : dataset_ok d -> can_write (d_mode d) = false ->
  fst (run_caught (map (run_call d) calls) st) = st /\
  Forall (fun o => o <> Ok tt) (snd (run_caught (map (run_call d) calls) st)).
Proof. exact (@readonly_calls d calls st). Qed.
Print Assumptions C28_readonly_plain.

Definition ex_ro : dataset :=
  Dataset [5; 3] [2; 2] (KeyConfig true "." 2 "default") (ElemType 2 false) [7; 0] raw_codec Mode_r.
Example C28_case : dataset_ok ex_ro /\ can_write (d_mode ex_ro) = false /\
  snd (run_caught (map (run_call ex_ro) [CallWrite [0; 0] [2; 2] (FromScalar [1; 1]); CallRemove [0; 0]]) (fun _ => None))
    = [Throw EInvalidArgument; Throw EInvalidArgument].
Proof.
  split; [|split; reflexivity]. destruct ex_zarr_ok as [H1 H2 H3 H4 H5 H6 H7 H8]. split; auto.
Qed.
