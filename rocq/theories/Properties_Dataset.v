(** Properties C25, C27 and C29: the chunk API of plain datasets. *)
From Verif Require Import M_Base M_Text M_Key M_Blocking M_Bytes M_N5Header M_Format M_Mode M_Dataset
  S_Array S_Grid S_Bytes S_Text S_Format S_Dataset P_Base P_Blocking P_Roi P_Bytes P_Key P_Format P_Dataset.
Import List ListNotations.
Local Open Scope list_scope.
Local Open Scope N_scope.

(** C27: after any history of valid writes, varlen writes (n5) and removals,
    starting without chunks, every chunk has the contents given to it by the last
    operation on it; a chunk of fill values or without elements does not exist;
    reading a missing chunk fails.  A read may use a larger buffer for varlen
    chunks; elements behind the data keep their value. *)
Theorem C27_chunk_map d ops st : dataset_ok d -> can_write (d_mode d) = true -> Forall (op_ok d) ops ->
  (forall c, valid_chunk (d_shape d) (d_chunks d) c -> st (chunk_key (d_key d) c) = None) ->
  exists st', run_ops d ops st = (st', Ok tt) /\
    (forall c, valid_chunk (d_shape d) (d_chunks d) c ->
      let r := last_result d ops c None in
      chunk_exists d st' c = Ok (match r with None => false | Some _ => true end) /\
      (r = None -> forall out, read_chunk d st' c out = Throw ERuntime) /\
      (forall vl data, r = Some (vl, data) ->
         check_varlen_chunk d st' c =
           Ok (vl, if vl then lenN data else prod (chunk_extent (d_shape d) (d_chunks d) c)) /\
         forall m out, buffer_of (t_width (d_type d)) m out -> lenN data <= m ->
           (vl = false -> m = prod (stored_shape d c)) ->
         exists rest, read_chunk d st' c out = Ok (vl, data ++ rest) /\
           out = firstn (length data) out ++ rest)) /\
    (forall k, (forall o, In o ops -> k <> chunk_key (d_key d) (op_chunk o)) -> st' k = st k).
Proof. intros H. exact (chunk_map_theorem H (ops := ops) (st := st)). Qed.
Print Assumptions C27_chunk_map.

(** C27, any initial contents: chunks that no operation names keep their bytes. *)
Theorem C27_other_chunks d ops st st' c : dataset_ok d -> can_write (d_mode d) = true ->
  Forall (op_ok d) ops -> run_ops d ops st = (st', Ok tt) ->
  (forall o, In o ops -> op_chunk o <> c) ->
  st' (chunk_key (d_key d) c) = st (chunk_key (d_key d) c).
Proof. intros H Hm Ho E Hn. exact (chunk_frame H Hm Ho E (c := c) Hn). Qed.
Print Assumptions C27_other_chunks.

(** C27, any initial contents: existence is decided by the last operation. *)
Theorem C27_last_operation_wins d ops c st st' : dataset_ok d -> can_write (d_mode d) = true ->
  Forall (op_ok d) ops -> run_ops d ops st = (st', Ok tt) ->
  (exists o, In o ops /\ op_chunk o = c) ->
  forall r0, chunk_exists d st' c =
    Ok (match last_result d ops c r0 with None => false | Some _ => true end).
Proof. intros H. exact (last_wins H (ops := ops) (c := c) (st := st) (st' := st')). Qed.
Print Assumptions C27_last_operation_wins.

(** A 5 x 3 n5 dataset of 16 bit values with 2 x 2 chunks. *)
Definition ex_n5 : dataset :=
  Dataset [5; 3] [2; 2] (KeyConfig false "." 2 "default") (ElemType 2 false) [7; 0] raw_codec Mode_a.
Lemma ex_n5_ok : dataset_ok ex_n5.
Proof.
  split.
  - split; [discriminate|]. cbn. rewrite W64_val. lia.
  - reflexivity.
  - rewrite W64_val. reflexivity.
  - split; [reflexivity|]. repeat constructor.
  - left. reflexivity.
  - reflexivity.
  - right. reflexivity.
  - intros _. split; [reflexivity|]. repeat constructor.
Qed.

Example C27_case :
  let ops := [OpWrite [2; 1] [[1; 0]]; OpVarlen [0; 0] [[9; 1]]; OpWrite [0; 1] [[7; 0]; [7; 0]];
              OpRemove [0; 0]; OpWrite [2; 1] [[2; 1]]] in
  dataset_ok ex_n5 /\ can_write (d_mode ex_n5) = true /\ Forall (op_ok ex_n5) ops /\
  last_result ex_n5 ops [2; 1] None = Some (false, [[2; 1]]) /\
  last_result ex_n5 ops [0; 1] None = None /\ last_result ex_n5 ops [0; 0] None = None.
Proof.
  split; [exact ex_n5_ok|]. split; [reflexivity|]. split; [|repeat split].
  repeat constructor; cbn; rewrite ?W64_val; try lia.
Qed.

(** C25, on the dataset: writing no elements removes the chunk (part of C27 by
    [op_result]); zarr datasets refuse varlen writes and keep all files. *)
Theorem C25_zarr_refuses d ids data k st : dataset_ok d -> d_zarr d = true ->
  valid_chunk (d_shape d) (d_chunks d) ids ->
  exists e, write_chunk d ids data true k st = (st, Throw e).
Proof. intros H. exact (zarr_varlen_write H (ids := ids) data k st). Qed.
Print Assumptions C25_zarr_refuses.

Theorem C25_empty_removes d ids st : dataset_ok d -> can_write (d_mode d) = true ->
  d_zarr d = false -> valid_chunk (d_shape d) (d_chunks d) ids ->
  exists st', write_chunk d ids [] true 0 st = (st', Ok tt) /\ chunk_exists d st' ids = Ok false /\
    forall k, k <> chunk_key (d_key d) ids -> st' k = st k.
Proof.
  intros H Hm Hz Hc.
  assert (O : op_ok d (OpVarlen ids [])).
  { cbn. repeat split; auto. rewrite N.mul_0_l. right. intros. lia. }
  destruct (write_varlen_spec H st Hm O) as (v & E & Hh). eexists. split; [exact E|].
  split; [apply (read_holds H Hc Hh)|]. intros k Hk. now apply set_key_other.
Qed.
Print Assumptions C25_empty_removes.

Example C25_dataset_case :
  dataset_ok ex_n5 /\ valid_chunk (d_shape ex_n5) (d_chunks ex_n5) [2; 1] /\
  snd (write_chunk ex_n5 [2; 1] [] true 0 (fun _ => None)) = Ok tt.
Proof. split; [exact ex_n5_ok|]. split; [cbn; lia|reflexivity]. Qed.

(** C29: chunk ids outside of the grid (or with too many entries) are refused by
    writes and reads, nothing is modified. *)
Theorem C29_invalid_ids_partial d ids : dataset_ok d -> ~ valid_chunk (d_shape d) (d_chunks d) ids ->
  (length (d_chunks d) <= length ids)%nat ->
  (forall data vl k st, exists e, write_chunk d ids data vl k st = (st, Throw e)) /\
  (forall st out, read_chunk d st ids out = Throw ERuntime).
Proof. intros H. exact (invalid_chunk H (ids := ids)). Qed.
Print Assumptions C29_invalid_ids_partial.

(** C29: removing an invalid id succeeds, but never affects a chunk of the grid. *)
Theorem C29_invalid_remove_partial d ids st st' c : dataset_ok d ->
  ~ valid_chunk (d_shape d) (d_chunks d) ids ->
  remove_chunk d ids st = (st', Ok tt) -> valid_chunk (d_shape d) (d_chunks d) c ->
  st' (chunk_key (d_key d) c) = st (chunk_key (d_key d) c).
Proof. intros H. exact (invalid_remove H (ids := ids) (st := st) (st' := st') (c := c)). Qed.
Print Assumptions C29_invalid_remove_partial.

Example C29_case :
  dataset_ok ex_n5 /\ ~ valid_chunk (d_shape ex_n5) (d_chunks ex_n5) [3; 0] /\
  ~ valid_chunk (d_shape ex_n5) (d_chunks ex_n5) [0; 0; 0] /\
  snd (write_chunk ex_n5 [3; 0] [[1; 1]; [1; 1]] false 0 (fun _ => None)) = Throw ERuntime.
Proof. split; [exact ex_n5_ok|]. split; [cbn; lia|]. split; [cbn; lia|reflexivity]. Qed.

(** C29 fails for ids with too few entries: the chunk handle reads behind the end
    of the id vector before it is checked.  And removal of an invalid id is not
    refused. *)
Theorem C29_short_id_refuted : exists d ids, dataset_ok d /\
  ~ valid_chunk (d_shape d) (d_chunks d) ids /\
  (forall st out, read_chunk d st ids out = UB) /\
  (exists ids', ~ valid_chunk (d_shape d) (d_chunks d) ids' /\
     forall st, snd (remove_chunk d ids' st) = Ok tt).
Proof.
  exists ex_n5, [0]. split; [exact ex_n5_ok|]. split; [cbn; tauto|]. split; [reflexivity|].
  exists [9; 9]. split; [cbn; lia|reflexivity].
Qed.
Print Assumptions C29_short_id_refuted.
