(** Properties C92 and C93: the published formats. *)
From Verif Require Import M_Base M_Text M_Key M_Blocking M_View M_Bytes M_N5Header M_Format M_Mode M_Shard
  M_Dataset M_Sharded M_Access
  S_Array S_Grid S_Bytes S_Crc S_Text S_Format S_Shard S_Dataset S_Access S_Sharded S_Layout S_Interop
  P_Base P_Format P_Layout P_Foreign Properties_Dataset Properties_Access Properties_Sharded.
Import List ListNotations.
Local Open Scope list_scope.
Local Open Scope N_scope.

(** C92: a reader that follows the published format finds the array in the files. *)
Theorem C92_layout d decode ops st : dataset_ok d ->
  undoes (prod (d_chunks d) * t_width (d_type d)) decode (d_codec d) -> can_write (d_mode d) = true ->
  Forall (array_op_ok d) ops ->
  (forall c, valid_chunk (d_shape d) (d_chunks d) c -> st (chunk_key (d_key d) c) = None) ->
  exists st', run_array_ops d ops st = (st', Ok tt) /\
    forall x, in_shape (d_shape d) x -> exists v, element_at (view_of d decode) st' x = Some v /\
      same_value d v (apply_ops d ops (fun _ => d_fill d) x) /\
      (t_float (d_type d) = false -> v = apply_ops d ops (fun _ => d_fill d) x).
Proof. exact (@plain_layout d decode ops st). Qed.
Print Assumptions C92_layout.

Theorem C92_sharded_layout sd decode ops st : sharded_ok sd ->
  undoes (prod (d_chunks (sd_base sd)) * t_width (d_type (sd_base sd))) decode (d_codec (sd_base sd)) ->
  can_write (d_mode (sd_base sd)) = true -> Forall (array_op_ok (sd_base sd)) ops ->
  (forall c, valid_chunk (d_shape (sd_base sd)) (d_chunks (sd_base sd)) c -> st (shard_key sd c) = None) ->
  exists st', run_sharded_ops sd ops st = (st', Ok tt) /\
    forall x, in_shape (d_shape (sd_base sd)) x -> exists v, element_at (sharded_view sd decode) st' x = Some v /\
      same_value (sd_base sd) v (apply_ops (sd_base sd) ops (fun _ => d_fill (sd_base sd)) x) /\
      (t_float (d_type (sd_base sd)) = false -> v = apply_ops (sd_base sd) ops (fun _ => d_fill (sd_base sd)) x).
Proof. exact (@sharded_layout_theorem sd decode ops st). Qed.
Print Assumptions C92_sharded_layout.

(** A reader of uncompressed data. *)
Definition raw_reader (e : bytes) (n : N) : option bytes :=
  if (lenN e =? n) && forallb (fun x => x <? 256) e then Some e else None.
Lemma raw_reader_undoes m : undoes m raw_reader raw_codec.
Proof.
  intros b e F _ _ H. change (e = b) in H. subst e. unfold raw_reader. rewrite N.eqb_refl.
  enough (forallb (fun x => x <? 256) b = true) as -> by reflexivity.
  apply forallb_forall. intros x Hx. apply N.ltb_lt. now apply (proj1 (Forall_forall _ _) F).
Qed.
Lemma raw_reader_accepts : accepts raw_reader raw_codec.
Proof.
  intros e n b H L. unfold raw_reader in H. destruct (lenN e =? n); [|discriminate H]. cbn [andb] in H.
  destruct (forallb _ e) eqn:F; [|discriminate H]. injection H as <-. split; [|reflexivity].
  apply Forall_forall. intros x Hx. apply N.ltb_lt. exact (proj1 (forallb_forall _ _) F x Hx).
Qed.

(** The history of C30: the files of 5 x 3 datasets as a reader sees them. *)
Example C92_case :
  undoes (prod (d_chunks ex_zarr) * 2) raw_reader (d_codec ex_zarr) /\
  (let st := fst (run_array_ops ex_zarr ex_ops (fun _ => None)) in
   map (element_at (view_of ex_zarr raw_reader) st) [[0; 0]; [1; 1]; [2; 1]; [3; 2]; [1; 2]; [4; 1]] =
   [Some [8; 0]; Some [1; 0]; Some [2; 0]; Some [6; 0]; Some [7; 0]; Some [9; 1]] /\
   st "0.0"%string = Some [8; 0; 7; 0; 7; 0; 1; 0] /\ st "2.0"%string <> None /\ st "0.1"%string = None) /\
  (let st := fst (run_array_ops ex_n5 ex_ops (fun _ => None)) in
   map (element_at (view_of ex_n5 raw_reader) st) [[0; 0]; [1; 1]; [2; 1]; [3; 2]; [1; 2]; [4; 1]] =
   [Some [8; 0]; Some [1; 0]; Some [2; 0]; Some [6; 0]; Some [7; 0]; Some [9; 1]] /\
   st "1/1"%string = Some [0; 0; 0; 2; 0; 0; 0; 1; 0; 0; 0; 2; 0; 5; 0; 6] /\
   st "0/2"%string = Some [0; 0; 0; 2; 0; 0; 0; 2; 0; 0; 0; 1; 1; 9; 1; 9]) /\
  (let st := fst (run_sharded_ops ex_sharded ex_ops (fun _ => None)) in
   map (element_at (sharded_view ex_sharded raw_reader) st) [[0; 0]; [1; 1]; [2; 1]; [3; 2]; [1; 2]; [4; 1]] =
   [Some [8; 0]; Some [1; 0]; Some [2; 0]; Some [6; 0]; Some [7; 0]; Some [9; 1]] /\
   st "c/0/0"%string <> None).
Proof.
  split; [apply raw_reader_undoes|]. split; [|split].
  - split; [vm_compute; reflexivity|]. split; [vm_compute; reflexivity|]. split; [vm_compute; discriminate|vm_compute; reflexivity].
  - split; [vm_compute; reflexivity|]. split; vm_compute; reflexivity.
  - split; [vm_compute; reflexivity|vm_compute; discriminate].
Qed.

(** C93: files that another program wrote in the published format.  Reading a region
    gives the elements that a reader of the format finds; n5 blocks at the border may
    have the extent of the chunk or the full block size. *)
Theorem C93_read d decode st ov off out : dataset_ok d -> accepts decode (d_codec d) ->
  region_ok d off (v_shape ov) -> out_view_ok ov (lenN out) ->
  (forall i, in_shape (v_shape ov) i -> element_at (view_of d decode) st (vadd off i) <> None) ->
  (d_zarr d = false -> forall c file, overlaps (d_shape d) (d_chunks d) off (v_shape ov) c -> st (n5_name c) = Some file ->
     n5_dims file = rev (chunk_extent (d_shape d) (d_chunks d) c) \/ n5_dims file = rev (d_chunks d)) ->
  exists out', read_subarray d st ov off out = Ok out' /\ lenN out' = lenN out /\
    (forall i, in_shape (v_shape ov) i -> exists v, element_at (view_of d decode) st (vadd off i) = Some v /\
       getN out' (v_off ov + lin (v_strides ov) i) = Ok v) /\
    (forall a, (forall i, in_shape (v_shape ov) i -> a <> v_off ov + lin (v_strides ov) i) -> getN out' a = getN out a).
Proof. intros ok acc. exact (@foreign_read d ok decode acc st ov off out). Qed.
Print Assumptions C93_read.

(** C93: writing into such files; a reader of the format finds the new array. *)
Theorem C93_history_partial d decode ops st f : dataset_ok d ->
  undoes (prod (d_chunks d) * t_width (d_type d)) decode (d_codec d) -> accepts decode (d_codec d) ->
  can_write (d_mode d) = true -> Forall (array_op_ok d) ops ->
  (forall x, in_shape (d_shape d) x -> element_at (view_of d decode) st x = Some (f x)) ->
  (d_zarr d = false -> forall c file, valid_chunk (d_shape d) (d_chunks d) c -> st (n5_name c) = Some file ->
     n5_dims file = rev (chunk_extent (d_shape d) (d_chunks d) c)) ->
  exists st', run_array_ops d ops st = (st', Ok tt) /\
    (forall x, in_shape (d_shape d) x -> exists v, element_at (view_of d decode) st' x = Some v /\
       same_value d v (apply_ops d ops f x) /\ (t_float (d_type d) = false -> v = apply_ops d ops f x)) /\
    (d_zarr d = false -> forall c file, valid_chunk (d_shape d) (d_chunks d) c -> st' (n5_name c) = Some file ->
       n5_dims file = rev (chunk_extent (d_shape d) (d_chunks d) c)).
Proof. intros ok dec acc. exact (@foreign_history d ok decode acc dec ops st f). Qed.
Print Assumptions C93_history_partial.

(** C93: reading and writing shards that another program wrote, with the chunks in any
    order, gaps, or shared data. *)
Theorem C93_sharded sd decode ops st f M : sharded_ok sd ->
  undoes (prod (d_chunks (sd_base sd)) * t_width (d_type (sd_base sd))) decode (d_codec (sd_base sd)) ->
  accepts decode (d_codec (sd_base sd)) ->
  can_write (d_mode (sd_base sd)) = true -> Forall (array_op_ok (sd_base sd)) ops ->
  (forall x, in_shape (d_shape (sd_base sd)) x -> element_at (sharded_view sd decode) st x = Some (f x)) ->
  prod (sd_cps sd) * M < 2 ^ 64 - 1 ->
  (forall c file, valid_chunk (d_shape (sd_base sd)) (d_chunks (sd_base sd)) c -> st (shard_key sd c) = Some file ->
     Forall is_byte file /\ intact_shard (sd_cps sd) file /\ lenN file <= M) ->
  exists st', run_sharded_ops sd ops st = (st', Ok tt) /\
    (forall x, in_shape (d_shape (sd_base sd)) x -> exists v, element_at (sharded_view sd decode) st' x = Some v /\
      same_value (sd_base sd) v (apply_ops (sd_base sd) ops f x) /\
      (t_float (d_type (sd_base sd)) = false -> v = apply_ops (sd_base sd) ops f x)) /\
    (forall ov off out, region_ok (sd_base sd) off (v_shape ov) -> out_view_ok ov (lenN out) ->
      exists out', sh_read_subarray sd st' ov off out = Ok out' /\ lenN out' = lenN out /\
        (forall i, in_shape (v_shape ov) i -> exists v,
           element_at (sharded_view sd decode) st' (vadd off i) = Some v /\
           getN out' (v_off ov + lin (v_strides ov) i) = Ok v) /\
        (forall a, (forall i, in_shape (v_shape ov) i -> a <> v_off ov + lin (v_strides ov) i) ->
           getN out' a = getN out a)).
Proof. exact (@foreign_sharded sd decode ops st f M). Qed.
Print Assumptions C93_sharded.

(** An n5 dataset with one inner block and a full block at the border. *)
Definition foreign_n5 (k : string) : option bytes :=
  if String.eqb k "0/0" then Some [0; 0; 0; 2; 0; 0; 0; 2; 0; 0; 0; 2; 0; 1; 0; 2; 0; 3; 0; 4]
  else if String.eqb k "1/2" then Some [0; 0; 0; 2; 0; 0; 0; 2; 0; 0; 0; 2; 1; 5; 9; 9; 9; 9; 9; 9]
  else None.
(** A shard with the second chunk before the first and bytes that belong to no chunk. *)
Definition foreign_index : bytes := [11; 0; 0; 0; 0; 0; 0; 0; 8; 0; 0; 0; 0; 0; 0; 0; 3; 0; 0; 0; 0; 0; 0; 0; 8; 0; 0; 0; 0; 0; 0; 0].
Definition foreign_shard : bytes :=
  [99; 99; 99] ++ [21; 0; 22; 0; 23; 0; 24; 0] ++ [11; 0; 12; 0; 13; 0; 14; 0] ++ foreign_index ++
  map (fun i => (crc32c_spec foreign_index / 256 ^ i) mod 256) [0; 1; 2; 3].
Definition foreign_shards (k : string) : option bytes := if String.eqb k "c/0/0" then Some foreign_shard else None.

Example C93_case :
  accepts raw_reader raw_codec /\
  map (element_at (view_of ex_n5 raw_reader) foreign_n5) [[0; 0]; [0; 1]; [1; 0]; [4; 2]; [2; 2]] =
    [Some [1; 0]; Some [2; 0]; Some [3; 0]; Some [5; 1]; Some [7; 0]] /\
  read_subarray ex_n5 foreign_n5 (View 0 [5; 3] [3; 1]) [0; 0] (repeat [0; 0] 15) =
    Ok [[1; 0]; [2; 0]; [7; 0]; [3; 0]; [4; 0]; [7; 0]; [7; 0]; [7; 0]; [7; 0]; [7; 0]; [7; 0]; [7; 0]; [7; 0]; [7; 0]; [5; 1]] /\
  map n5_dims (match foreign_n5 "1/2" with Some x => [x] | None => [] end) = [rev (d_chunks ex_n5)] /\
  rev (d_chunks ex_n5) <> rev (chunk_extent (d_shape ex_n5) (d_chunks ex_n5) [2; 1]).
Proof.
  split; [apply raw_reader_accepts|]. split; [vm_compute; reflexivity|]. split; [vm_compute; reflexivity|].
  split; [vm_compute; reflexivity|vm_compute; discriminate].
Qed.

Lemma foreign_shard_intact : Forall is_byte foreign_shard /\ intact_shard [2; 1] foreign_shard /\ lenN foreign_shard <= 60.
Proof.
  split; [|split].
  - apply Forall_forall. intros x Hx. apply N.ltb_lt. revert x Hx. apply forallb_forall. vm_compute. reflexivity.
  - split; [vm_compute; discriminate|]. split; [vm_compute; reflexivity|]. intros k Hk. change (prod [2; 1]) with 2 in Hk.
    right. assert (k = 0 \/ k = 1) as [-> | ->] by lia; split; vm_compute; [reflexivity|discriminate|reflexivity|discriminate].
  - vm_compute. discriminate.
Qed.

Example C93_shard_case :
  prod (sd_cps ex_sharded) * 60 < 2 ^ 64 - 1 /\
  (forall c file, valid_chunk (d_shape (sd_base ex_sharded)) (d_chunks (sd_base ex_sharded)) c ->
     foreign_shards (shard_key ex_sharded c) = Some file ->
     Forall is_byte file /\ intact_shard (sd_cps ex_sharded) file /\ lenN file <= 60) /\
  (forall x, in_shape (d_shape (sd_base ex_sharded)) x -> exists v, element_at (sharded_view ex_sharded raw_reader) foreign_shards x = Some v) /\
  map (element_at (sharded_view ex_sharded raw_reader) foreign_shards) [[0; 0]; [1; 1]; [2; 0]; [3; 1]; [4; 2]] =
    [Some [11; 0]; Some [14; 0]; Some [21; 0]; Some [24; 0]; Some [7; 0]] /\
  (let st := fst (run_sharded_ops ex_sharded ex_ops foreign_shards) in
   snd (run_sharded_ops ex_sharded ex_ops foreign_shards) = Ok tt /\
   map (element_at (sharded_view ex_sharded raw_reader) st) [[0; 0]; [1; 1]; [2; 0]; [3; 1]; [4; 1]] <>
   map (element_at (sharded_view ex_sharded raw_reader) foreign_shards) [[0; 0]; [1; 1]; [2; 0]; [3; 1]; [4; 1]]).
Proof.
  split; [reflexivity|]. split; [|split; [|split; [vm_compute; reflexivity|split; [vm_compute; reflexivity|vm_compute; discriminate]]]].
  - intros c file _ H. unfold foreign_shards in H. destruct (String.eqb _ _) in H; [|discriminate H]. injection H as <-.
    exact foreign_shard_intact.
  - intros x Hx. inversion Hx as [|i1 ? ? ? H1 Hx1]; subst. inversion Hx1 as [|i2 ? ? ? H2 Hx2]; subst. inversion Hx2; subst.
    assert (i1 = 0 \/ i1 = 1 \/ i1 = 2 \/ i1 = 3 \/ i1 = 4) as [-> |[-> |[-> |[-> | ->]]]] by lia;
      (assert (i2 = 0 \/ i2 = 1 \/ i2 = 2) as [-> |[-> | ->]] by lia); eexists; vm_compute; reflexivity.
Qed.

(** C93, fails for n5 blocks of full size at the border: they can be read, but a
    write into a part of them reads the block into a buffer of the size of the clipped
    chunk and runs over its end. *)
Definition foreign_border (k : string) : option bytes :=
  if String.eqb k "0/2" then Some [0; 0; 0; 2; 0; 0; 0; 2; 0; 0; 0; 2; 0; 1; 0; 2; 9; 9; 9; 9] else None.
Theorem C93_border_block_refuted : exists d ops st, dataset_ok d /\ can_write (d_mode d) = true /\ Forall (array_op_ok d) ops /\
  accepts raw_reader (d_codec d) /\
  (forall x, in_shape (d_shape d) x -> element_at (view_of d raw_reader) st x <> None) /\
  (forall c file, valid_chunk (d_shape d) (d_chunks d) c -> st (n5_name c) = Some file -> n5_dims file = rev (d_chunks d)) /\
  snd (run_array_ops d ops st) = UB.
Proof.
  exists ex_n5, [AWrite [4; 0] [1; 1] (FromScalar [8; 0])], foreign_border. split; [exact ex_n5_ok|]. split; [reflexivity|]. split.
  { constructor; [|constructor]. split; [split; cbn; lia|]. split; [reflexivity|]. repeat constructor. }
  split; [apply raw_reader_accepts|]. split; [|split].
  - intros x Hx. inversion Hx as [|i1 ? ? ? H1 Hx1]; subst. inversion Hx1 as [|i2 ? ? ? H2 Hx2]; subst. inversion Hx2; subst.
    assert (i1 = 0 \/ i1 = 1 \/ i1 = 2 \/ i1 = 3 \/ i1 = 4) as [-> |[-> |[-> |[-> | ->]]]] by lia;
      (assert (i2 = 0 \/ i2 = 1 \/ i2 = 2) as [-> |[-> | ->]] by lia); vm_compute; discriminate.
  - intros c file _ H. unfold foreign_border in H. destruct (String.eqb _ _) in H; [|discriminate H]. injection H as <-. reflexivity.
  - vm_compute. reflexivity.
Qed.
Print Assumptions C93_border_block_refuted.
