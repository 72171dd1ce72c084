(** C110: what a dataset reports about itself. *)
From Coq Require Import String Lia.
From Verif Require Import M_Base M_Text M_Bytes M_Blocking M_Mode M_Key M_View M_Format M_N5Header M_Dataset M_Sharded M_Access M_Report
  S_Array S_Grid S_Bytes S_Text S_Format S_Shard S_Dataset S_Access S_Sharded S_Report
  P_Base P_Format P_Dataset P_Access P_Report Properties_Dataset Properties_Access Properties_Sharded.
Import ListNotations.
Local Open Scope list_scope.
Local Open Scope N_scope.
Local Notation length := List.length.

(** The size is the number of elements, the number of chunks is how many there are, and
    the sizes of the chunks add up to that of the array. *)
Theorem C110_sizes d : dataset_ok d -> prod (d_shape d) < W64 ->
  ds_size d = prod (d_shape d) /\ (forall n r, d_shape d = n :: r -> ds_len d = Ok n) /\
  (exists cpd, chunks_per_dimension d = Ok cpd /\ forall c, in_shape cpd c <-> valid_chunk (d_shape d) (d_chunks d) c) /\
  forall l, NoDup l -> (forall c, In c l <-> valid_chunk (d_shape d) (d_chunks d) c) ->
    number_of_chunks d = Ok (lenN l) /\
    exists ns, Forall2 (fun c n => get_chunk_size d c = Ok n) l ns /\ total ns = ds_size d.
Proof. intros H. exact (reported_sizes H). Qed.
Print Assumptions C110_sizes.

Example C110_sizes_case : dataset_ok ex_n5 /\ prod (d_shape ex_n5) < W64 /\
  NoDup [[0; 0]; [0; 1]; [1; 0]; [1; 1]; [2; 0]; [2; 1]] /\
  (forall c, In c [[0; 0]; [0; 1]; [1; 0]; [1; 1]; [2; 0]; [2; 1]] <-> valid_chunk (d_shape ex_n5) (d_chunks ex_n5) c) /\
  number_of_chunks ex_n5 = Ok 6 /\ ds_size ex_n5 = 15.
Proof.
  split; [exact ex_n5_ok|]. split; [reflexivity|]. split.
  { repeat constructor; cbn; intuition discriminate. }
  split; [|split; reflexivity].
  intros c. unfold valid_chunk. cbn [d_shape d_chunks ex_n5]. split.
  - cbn [In]. intros H. repeat (destruct H as [<-|H]; [cbn; lia|]). contradiction.
  - destruct c as [|i [|j [|]]]; cbn [all3]; try tauto. intros (Hi & Hj & _).
    assert (i = 0 \/ i = 1 \/ i = 2) as Ei by lia. assert (j = 0 \/ j = 1) as Ej by lia.
    destruct Ei as [->|[->| ->]], Ej as [->| ->]; cbn; tauto.
Qed.

(** Offset, shape and size of a chunk describe its elements. *)
Theorem C110_chunk d c : dataset_ok d -> valid_chunk (d_shape d) (d_chunks d) c ->
  exists o e, get_chunk_offset d c = Ok o /\ get_chunk_shape d c = Ok e /\ get_chunk_size d c = Ok (prod e) /\
    forall x, in_box o e x <-> in_chunk (d_shape d) (d_chunks d) c x.
Proof. intros H. exact (reported_chunk H (c := c)). Qed.
Print Assumptions C110_chunk.

(** One extent, with and without the header. *)
Theorem C110_axis d st c fh e : get_chunk_shape_from d st c fh = Ok e ->
  forall i n, nth_error e i = Some n -> get_chunk_shape_dim d st c (N.of_nat i) fh = Ok n.
Proof. exact (@reported_axis d st c fh e). Qed.
Print Assumptions C110_axis.
Theorem C110_axis_array d st c : dataset_ok d -> valid_chunk (d_shape d) (d_chunks d) c ->
  exists e, get_chunk_shape d c = Ok e /\ length e = length (d_shape d) /\
    forall i n, nth_error e i = Some n -> get_chunk_shape_dim d st c (N.of_nat i) false = Ok n.
Proof. intros H. exact (@reported_axes d H st c). Qed.
Print Assumptions C110_axis_array.
Theorem C110_dimension d : lenN (d_shape d) < 2 ^ 32 -> ds_dimension d = lenN (d_shape d).
Proof. exact (@reported_dimension d). Qed.
Print Assumptions C110_dimension.
Example C110_axis_case : get_chunk_shape_from ex_n5 (fun _ => None) [2; 0] false = Ok [1; 2] /\
  get_chunk_shape_dim ex_n5 (fun _ => None) [2; 0] 0 false = Ok 1 /\
  get_chunk_shape_dim ex_n5 (fun _ => None) [2; 0] 1 false = Ok 2 /\ ds_dimension ex_n5 = 2.
Proof. repeat split; reflexivity. Qed.

Theorem C110_sharded sd c fh : sharded_ok sd -> valid_chunk (d_shape (sd_base sd)) (d_chunks (sd_base sd)) c ->
  exists o e, get_chunk_offset (sd_base sd) c = Ok o /\ sh_get_chunk_shape sd c fh = Ok e /\ sh_get_chunk_size sd c = Ok (prod e) /\
    forall x, in_box o e x <-> in_chunk (d_shape (sd_base sd)) (d_chunks (sd_base sd)) c x.
Proof. intros H. exact (reported_chunk (so_base H) (c := c)). Qed.
Print Assumptions C110_sharded.

Example C110_chunk_case : dataset_ok ex_n5 /\ valid_chunk (d_shape ex_n5) (d_chunks ex_n5) [2; 1] /\
  get_chunk_offset ex_n5 [2; 1] = Ok [4; 2] /\ get_chunk_shape ex_n5 [2; 1] = Ok [1; 1] /\
  sharded_ok ex_sharded /\ valid_chunk (d_shape (sd_base ex_sharded)) (d_chunks (sd_base ex_sharded)) [2; 1].
Proof.
  split; [exact ex_n5_ok|]. split; [cbn; lia|]. split; [reflexivity|]. split; [reflexivity|]. split; [exact ex_sharded_ok|]. cbn. lia.
Qed.

(** The shape in the header of a stored chunk is the shape of the chunk, after every
    history of chunk operations, with variable length or not, and of array operations. *)
Theorem C110_header d ops st st' : dataset_ok d -> can_write (d_mode d) = true -> Forall (op_ok d) ops ->
  (forall c, valid_chunk (d_shape d) (d_chunks d) c -> st (chunk_key (d_key d) c) = None) -> run_ops d ops st = (st', Ok tt) ->
  forall c fromHeader, valid_chunk (d_shape d) (d_chunks d) c -> chunk_exists d st' c = Ok true ->
    get_chunk_shape_from d st' c fromHeader = get_chunk_shape d c.
Proof. intros H. exact (header_chunks H (ops := ops) (st := st) (st' := st')). Qed.
Print Assumptions C110_header.

Theorem C110_header_array d ops st st' : dataset_ok d -> can_write (d_mode d) = true -> Forall (array_op_ok d) ops ->
  (forall c, valid_chunk (d_shape d) (d_chunks d) c -> st (chunk_key (d_key d) c) = None) -> run_array_ops d ops st = (st', Ok tt) ->
  forall c fromHeader, valid_chunk (d_shape d) (d_chunks d) c -> chunk_exists d st' c = Ok true ->
    get_chunk_shape_from d st' c fromHeader = get_chunk_shape d c.
Proof. intros H. exact (header_array H (ops := ops) (st := st) (st' := st')). Qed.
Print Assumptions C110_header_array.

Example C110_header_case :
  let ops := [OpWrite [2; 1] [[1; 0]]; OpVarlen [0; 0] [[9; 1]]; OpWrite [0; 1] [[7; 0]; [7; 0]]; OpWrite [2; 1] [[2; 1]]] in
  let st' := fst (run_ops ex_n5 ops (fun _ => None)) in
  dataset_ok ex_n5 /\ can_write (d_mode ex_n5) = true /\ Forall (op_ok ex_n5) ops /\ snd (run_ops ex_n5 ops (fun _ => None)) = Ok tt /\
  chunk_exists ex_n5 st' [2; 1] = Ok true /\ chunk_exists ex_n5 st' [0; 0] = Ok true /\ chunk_exists ex_n5 st' [0; 1] = Ok false /\
  get_chunk_shape_from ex_n5 st' [2; 1] true = Ok [1; 1] /\ get_chunk_shape_from ex_n5 st' [0; 0] true = Ok [2; 2].
Proof.
  split; [exact ex_n5_ok|]. split; [reflexivity|]. split; [repeat constructor; cbn; rewrite ?W64_val; try lia|].
  repeat split; vm_compute; reflexivity.
Qed.

(** Findings.  The header of a chunk that does not exist is used without having been read; *)
Theorem C110_missing_refuted d st c : dataset_ok d -> d_zarr d = false -> valid_chunk (d_shape d) (d_chunks d) c ->
  chunk_exists d st c = Ok false -> get_chunk_shape_from d st c true = UB.
Proof.
  intros H Z V X. unfold chunk_exists, get_chunk_shape_from in *. rewrite (handle_ok H V) in *. cbn [bind ch_key] in *.
  destruct (st (chunk_key (d_key d) c)); [discriminate X|]. now rewrite Z.
Qed.
Print Assumptions C110_missing_refuted.

(** from a file that was cut off in the header, extents of 0 are returned; *)
Theorem C110_cut_refuted : exists d st c, dataset_ok d /\ valid_chunk (d_shape d) (d_chunks d) c /\
  st (chunk_key (d_key d) c) = Some (firstn 7 (write_n5_header (chunk_extent (d_shape d) (d_chunks d) c) false 0)) /\
  get_chunk_shape_from d st c true = Ok [0; 0] /\ forall out, read_chunk d st c out = Throw ERuntime.
Proof.
  exists ex_n5, (fun _ => Some (firstn 7 (write_n5_header [2; 2] false 0))), [0; 0].
  split; [exact ex_n5_ok|]. split; [cbn; lia|]. split; [reflexivity|]. split; [vm_compute; reflexivity|]. intros out. reflexivity.
Qed.
Print Assumptions C110_cut_refuted.

(** and the size of an array of 2^64 elements or more is taken modulo 2^64. *)
Theorem C110_size_refuted : exists d, dataset_ok d /\ d_shape d = [2 ^ 32; 2 ^ 32] /\ ds_size d = 0.
Proof.
  exists (Dataset [2 ^ 32; 2 ^ 32] [2; 2] (KeyConfig false "." 2 "default") (ElemType 2 false) [7; 0] raw_codec Mode_a).
  split; [|split; reflexivity]. destruct ex_n5_ok as [A B C D E F G H]. split; auto.
  split; [discriminate|]. cbn. rewrite W64_val. lia.
Qed.
Print Assumptions C110_size_refuted.
