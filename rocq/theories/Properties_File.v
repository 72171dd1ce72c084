(** Property C35: reads depend on the stored chunks only. *)
From Verif Require Import M_Base M_Text M_Key M_Blocking M_View M_Bytes M_N5Header M_Format M_Mode M_Dataset M_Access
  S_Array S_Grid S_Bytes S_Text S_Format S_Dataset S_Access S_File
  P_Base P_Blocking P_Roi P_View P_Bytes P_Key P_Format P_Dataset P_Access P_Read P_File.
Import List ListNotations.
Local Open Scope list_scope.
Local Open Scope N_scope.

(** C35: whatever files the dataset directory holds, as long as they have not been
    cut short, a read of any region that covers element x returns for it a value
    that is a function of the file of x's chunk alone; the read succeeds exactly if
    all covered chunks can be decoded and none has a variable length. *)
Theorem C35_reads_depend_on_files_partial d : dataset_ok d -> forall st ov off out,
  region_ok d off (v_shape ov) -> out_view_ok ov (lenN out) ->
  (forall c file, overlaps (d_shape d) (d_chunks d) off (v_shape ov) c ->
     st (chunk_key (d_key d) c) = Some file -> complete_file d c file) ->
  ((forall c, overlaps (d_shape d) (d_chunks d) off (v_shape ov) c -> readable d st c) ->
   exists out', read_subarray d st ov off out = Ok out') /\
  (forall out', read_subarray d st ov off out = Ok out' ->
     (forall c, overlaps (d_shape d) (d_chunks d) off (v_shape ov) c -> readable d st c) /\
     lenN out' = lenN out /\
     (forall i, in_shape (v_shape ov) i ->
        getN out' (v_off ov + lin (v_strides ov) i) = Ok (stored_value d st (vadd off i))) /\
     (forall a, (forall i, in_shape (v_shape ov) i -> a <> v_off ov + lin (v_strides ov) i) ->
        getN out' a = getN out a)) /\
  read_subarray d st ov off out <> UB.
Proof. intros H st ov off out. exact (@read_files d H ov off st out). Qed.
Print Assumptions C35_reads_depend_on_files_partial.

(** C35: reading the single chunk gives the same elements. *)
Theorem C35_chunk_read_agrees d : dataset_ok d -> forall c file st sh cells out,
  valid_chunk (d_shape d) (d_chunks d) c -> st (chunk_key (d_key d) c) = Some file ->
  complete_file d c file -> file_cells d c file = Some (sh, cells) ->
  buffer_of (t_width (d_type d)) (prod sh) out ->
  read_chunk d st c out = Ok (false, cells).
Proof. intros H c file st sh cells out. exact (@read_chunk_file d H c file st sh cells out). Qed.
Print Assumptions C35_chunk_read_agrees.

(** A 5 element n5 dataset of 16 bit values with chunks of 2; the last chunk is
    stored with the full chunk shape. *)
Definition ex_file : dataset :=
  Dataset [5] [2] (KeyConfig false "." 2 "default") (ElemType 2 false) [7; 0] raw_codec Mode_a.
Lemma ex_file_ok : dataset_ok ex_file.
Proof.
  split.
  - split; [discriminate|]. cbn. rewrite W64_val. lia.
  - reflexivity.
  - rewrite W64_val. reflexivity.
  - split; [reflexivity|]. repeat constructor.
  - left. reflexivity.
  - reflexivity.
  - right. reflexivity.
  - intros _. split; [reflexivity|]. repeat constructor.
Qed.
Definition ex_files : store := fun k =>
  if String.eqb k "2" then Some ([0; 0; 0; 1; 0; 0; 0; 2] ++ [0; 5; 0; 6])
  else if String.eqb k "0" then Some ([0; 0; 0; 1; 0; 0; 0; 2] ++ [1; 1; 2; 2]) else None.
Lemma ex_files_complete : forall c file, overlaps [5] [2] [1] [4] c ->
  ex_files (chunk_key (d_key ex_file) c) = Some file -> complete_file ex_file c file.
Proof.
  intros c file (x & Hb & Hc) E. destruct c as [|k [|k1 c]], x as [|x [|x1 xs]]; cbn in Hc; try tauto.
  assert (K : k = 0 \/ k = 1 \/ k = 2) by lia. clear Hb Hc.
  destruct K as [-> |[-> | ->]]; vm_compute in E; injection E as <- || discriminate E;
    intros sz payload H; vm_compute in H; injection H as <- <-.
  - split; [right; reflexivity|]. split; [|discriminate]. intros _. split; [repeat constructor|discriminate].
  - split; [right; reflexivity|]. split; [|discriminate]. intros _. split; [repeat constructor|discriminate].
Qed.
Example C35_case :
  dataset_ok ex_file /\ region_ok ex_file [1] [4] /\ out_view_ok (make_view [4]) 4 /\
  (forall c file, overlaps [5] [2] [1] [4] c ->
     ex_files (chunk_key (d_key ex_file) c) = Some file -> complete_file ex_file c file) /\
  read_subarray ex_file ex_files (make_view [4]) [1] (repeat [0; 0] 4) = Ok [[2; 2]; [7; 0]; [7; 0]; [5; 0]] /\
  map (stored_value ex_file ex_files) [[1]; [2]; [3]; [4]] = [[2; 2]; [7; 0]; [7; 0]; [5; 0]] /\
  file_cells ex_file [2] ([0; 0; 0; 1; 0; 0; 0; 2] ++ [0; 5; 0; 6]) = Some ([2], [[5; 0]; [6; 0]]).
Proof.
  split; [exact ex_file_ok|]. split; [split; cbn; lia|]. split.
  { split; [reflexivity|]. change (make_view [4]) with (View 0 [4] [1]). cbn [v_off v_shape v_strides]. split.
    - intros i Hi. inversion Hi as [|x0 ? ? ? H1 Hi']; subst. inversion Hi'; subst. cbn. lia.
    - intros i j Hi Hj. inversion Hi as [|x0 ? ? ? H1 Hi']; subst. inversion Hi'; subst.
      inversion Hj as [|x1 ? ? ? H2 Hj']; subst. inversion Hj'; subst. cbn. intros H. f_equal. lia. }
  split; [exact ex_files_complete|]. split; [vm_compute; reflexivity|]. split; vm_compute; reflexivity.
Qed.

(** C35 is false for files that have been cut short: the raw codec accepts a short
    file and leaves the rest of the reused scratch buffer as it is, so the value
    read for an element depends on which other chunks the request covers. *)
Theorem C35_truncated_file_refuted :
  exists d st ov1 off1 ov2 off2 x v1 v2, dataset_ok d /\
    region_ok d off1 (v_shape ov1) /\ region_ok d off2 (v_shape ov2) /\
    (exists i1 out1, vadd off1 i1 = x /\ in_shape (v_shape ov1) i1 /\
       read_subarray d st ov1 off1 (repeat [0] 4) = Ok out1 /\ getN out1 (v_off ov1 + lin (v_strides ov1) i1) = Ok v1) /\
    (exists i2 out2, vadd off2 i2 = x /\ in_shape (v_shape ov2) i2 /\
       read_subarray d st ov2 off2 (repeat [0] 4) = Ok out2 /\ getN out2 (v_off ov2 + lin (v_strides ov2) i2) = Ok v2) /\
    v1 <> v2.
Proof.
  exists (Dataset [4] [2] (KeyConfig true "." 2 "default") (ElemType 1 false) [7] raw_codec Mode_a).
  exists (fun k => if String.eqb k "0" then Some [1; 2] else if String.eqb k "1" then Some [3] else None).
  exists (make_view [4]), [0], (make_view [2]), [2], [3], [2], [0]. split.
  { split.
    - split; [discriminate|]. cbn. rewrite W64_val. lia.
    - reflexivity.
    - rewrite W64_val. reflexivity.
    - split; [reflexivity|]. repeat constructor.
    - left. reflexivity.
    - reflexivity.
    - right. reflexivity.
    - discriminate. }
  split; [split; cbn; lia|]. split; [split; cbn; lia|]. split; [|split; [|discriminate]].
  - exists [3], [[1]; [2]; [3]; [2]]. split; [reflexivity|]. split; [repeat constructor|]. split; vm_compute; reflexivity.
  - exists [1], [[3]; [0]; [0]; [0]]. split; [reflexivity|]. split; [repeat constructor|]. split; vm_compute; reflexivity.
Qed.
Print Assumptions C35_truncated_file_refuted.
