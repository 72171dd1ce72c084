(** Property C116: readers of an array in an object store that another client changes. *)
From Verif Require Import M_Base M_Text M_Key M_Blocking M_View M_Bytes M_N5Header M_Format
  M_Mode M_Shard M_Dataset M_Sharded M_Access M_Pool M_Parallel M_Lock M_Clients M_S3Clients
  S_Array S_Grid S_Bytes S_Text S_Format S_Shard S_Dataset S_Sharded S_Access S_Lock S_Clients S_Readers S_S3Clients
  P_Base P_Pool P_Lock P_Clients P_Clients2 P_Readers P_Readers2 P_Readers3 P_S3Clients
  Properties_Dataset Properties_Access Properties_Sharded Properties_Readers Properties_PlainReaders.
Import List ListNotations.
Local Open Scope list_scope.
Local Open Scope N_scope.

(** C116, datasets without shards: after a history [pre], client [wr] makes the calls
    [cs] while any number of other clients read, without coordination.  A reader starts
    a read after the moment [y1] and has its answer at the moment [y2].  In every
    interleaving of the requests:
    - the read shows, for each chunk, its elements after some number of the writer's
      calls: at least those that had returned at [y1], at most those that had returned
      at [y2] and the one under way; or
    - one of the chunks of the region is changed in this time and has nothing but the
      fill value at some moment of it.  Then the read throws if readers notice empty
      objects; without compression in zarr it returns, and shows all other chunks as
      above.
    So no read fails because a chunk is being overwritten. *)
Theorem C116_reader d pre st00 st0 calls wr cs y1 y2 t ov off out rest r : dataset_ok d ->
  can_write (d_mode d) = true -> Forall (array_op_ok d) pre ->
  (forall c, valid_chunk (d_shape d) (d_chunks d) c -> st00 (chunk_key (d_key d) c) = None) ->
  run_array_ops d pre st00 = (st0, Ok tt) ->
  Forall (Forall (client_call_ok d)) calls -> nth_error calls wr = Some cs ->
  (forall t' cs', t' <> wr -> nth_error calls t' = Some cs' -> Forall read_only cs') ->
  reach (clients_step (s3_body d)) (clients_init st0 calls) y1 -> t <> wr ->
  nth_error (k_clients y1) t = Some (KIdle, KRead ov off out :: rest) ->
  reach (clients_step (s3_body d)) y1 y2 ->
  nth_error (answers_to t (k_log y2)) (List.length (answers_to t (k_log y1))) = Some r ->
  let a0 := apply_ops d pre (fun _ => d_fill d) in
  let lo := List.length (calls_by wr (k_log y1)) in
  let hi := List.length (calls_by wr (k_log y2)) in
  (exists moment out', r = Ok out' /\ (forall c, (lo <= moment c <= S hi)%nat) /\
     shows_region d (chunk_patchwork d cs a0 moment) ov off out out') \/
  ((exists c, overlaps (d_shape d) (d_chunks d) off (v_shape ov) c /\ cleared d cs a0 lo hi c) /\
   (empty_rejected d -> r = Throw ERuntime) /\
   (plain_bytes d -> exists moment out', r = Ok out' /\ (forall c, (lo <= moment c <= S hi)%nat) /\
     shows_except d (cleared d cs a0 lo hi) (chunk_patchwork d cs a0 moment) ov off out out')).
Proof. intros ok Hw. exact (@s3_reader d ok Hw pre st00 st0 calls wr cs y1 y2 t ov off out rest r). Qed.
Print Assumptions C116_reader.

(** C116, sharded datasets: every read returns, and shows for each shard its elements
    after some number of the writer's calls, with the same bounds. *)
Theorem C116_sharded sd pre st00 st0 calls wr cs y1 y2 t ov off out rest r : sharded_ok sd ->
  can_write (d_mode (sd_base sd)) = true -> Forall (array_op_ok (sd_base sd)) pre ->
  (forall c, valid_chunk (d_shape (sd_base sd)) (d_chunks (sd_base sd)) c -> st00 (shard_key sd c) = None) ->
  run_sharded_ops sd pre st00 = (st0, Ok tt) ->
  Forall (Forall (client_call_ok (sd_base sd))) calls -> nth_error calls wr = Some cs ->
  (forall t' cs', t' <> wr -> nth_error calls t' = Some cs' -> Forall read_only cs') ->
  reach (clients_step (s3_sharded_body sd)) (clients_init st0 calls) y1 -> t <> wr ->
  nth_error (k_clients y1) t = Some (KIdle, KRead ov off out :: rest) ->
  reach (clients_step (s3_sharded_body sd)) y1 y2 ->
  nth_error (answers_to t (k_log y2)) (List.length (answers_to t (k_log y1))) = Some r ->
  let a0 := apply_ops (sd_base sd) pre (fun _ => d_fill (sd_base sd)) in
  let lo := List.length (calls_by wr (k_log y1)) in
  let hi := List.length (calls_by wr (k_log y2)) in
  exists moment out', r = Ok out' /\ (forall k, (lo <= moment k <= S hi)%nat) /\
    shows_region (sd_base sd) (patchwork sd cs a0 moment) ov off out out'.
Proof. exact (@s3_sharded_reader sd pre st00 st0 calls wr cs y1 y2 t ov off out rest r). Qed.
Print Assumptions C116_sharded.

(** A writer that changes one chunk, removes it, and then changes all elements; two
    readers. *)
Definition ex_bunch : list (list client_call) :=
  [[KOp (AWrite [0; 2] [2; 1] (FromScalar [6; 6])); KOp (ARemove [0; 1]); KOp (ex_every [8; 1])];
   [ex_watch]; [ex_watch; ex_watch]].

Lemma ex_bunch_ok d : d = ex_n5 \/ d = ex_zarr -> Forall (Forall (client_call_ok d)) ex_bunch /\
  (forall t cs, t <> 0%nat -> nth_error ex_bunch t = Some cs -> Forall read_only cs).
Proof.
  intros D. destruct (ex_trio_ok D) as (_ & F & _). unfold ex_trio in F.
  inversion F as [|? ? F1 F']; subst. inversion F' as [|? ? F2 F'']; subst. inversion F'' as [|? ? F3 _]; subst.
  inversion F1 as [|? ? G1 G']; subst. inversion G' as [|? ? G2 _]; subst.
  split.
  - unfold ex_bunch. apply Forall_cons; [|apply Forall_cons; [exact F2|apply Forall_cons; [exact F3|constructor]]].
    apply Forall_cons; [exact G1|]. apply Forall_cons; [|apply Forall_cons; [exact G2|constructor]].
    cbn [client_call_ok array_op_ok]. destruct D as [-> | ->]; repeat constructor.
  - intros [|[|[|t]]] cs Ht E; [congruence| | |destruct t; discriminate]; injection E as <-; repeat constructor.
Qed.

(** n5: the chunk is removed after the first reader has found that it exists, and the
    read throws; the second reader gets one chunk of the third call. *)
Example C116_case : dataset_ok ex_n5 /\ can_write (d_mode ex_n5) = true /\ empty_rejected ex_n5 /\
  Forall (array_op_ok ex_n5) ex_past /\ Forall (Forall (client_call_ok ex_n5)) ex_bunch /\
  (forall t cs, t <> 0%nat -> nth_error ex_bunch t = Some cs -> Forall read_only cs) /\
  exists st0 y1 y2 y3 rest, run_array_ops ex_n5 ex_past (fun _ => None) = (st0, Ok tt) /\
    reach (clients_step (s3_body ex_n5)) (clients_init st0 ex_bunch) y1 /\
    nth_error (k_clients y1) 1 = Some (KIdle, [ex_watch]) /\ answers_to 1 (k_log y1) = [] /\
    reach (clients_step (s3_body ex_n5)) y1 y2 /\ answers_to 1 (k_log y2) = [Throw ERuntime] /\
    nth_error (k_clients y2) 2 = Some (KIdle, ex_watch :: rest) /\ reach (clients_step (s3_body ex_n5)) y2 y3 /\
    answers_to 2 (k_log y3) = [Ok ([[8; 1]; [8; 1]; [7; 0]; [8; 1]; [8; 1]; [7; 0]] ++ repeat [5; 5] 9)].
Proof.
  destruct (@ex_trio_ok ex_n5 (or_introl Logic.eq_refl)) as (P1 & _). destruct (@ex_bunch_ok ex_n5 (or_introl Logic.eq_refl)) as (P2 & P3).
  split; [exact ex_n5_ok|]. split; [reflexivity|].
  split; [left; reflexivity|]. split; [exact P1|]. split; [exact P2|]. split; [exact P3|].
  destruct (run_array_ops ex_n5 ex_past (fun _ => None)) as [st0 r] eqn:E0.
  set (s1 := repeat 0%nat 5). set (s2 := repeat 1%nat 8 ++ repeat 0%nat 3 ++ repeat 1%nat 80). set (s3 := repeat 0%nat 4 ++ repeat 2%nat 34).
  assert (F : let (st0, r) := run_array_ops ex_n5 ex_past (fun _ => None) in
    r = Ok tt /\ let y1 := kexec (s3_body ex_n5) (clients_init st0 ex_bunch) s1 in
    let y2 := kexec (s3_body ex_n5) y1 s2 in let y3 := kexec (s3_body ex_n5) y2 s3 in
    nth_error (k_clients y1) 1 = Some (KIdle, [ex_watch]) /\ answers_to 1 (k_log y1) = [] /\
    answers_to 1 (k_log y2) = [Throw ERuntime] /\
    nth_error (k_clients y2) 2 = Some (KIdle, [ex_watch; ex_watch]) /\
    answers_to 2 (k_log y3) = [Ok ([[8; 1]; [8; 1]; [7; 0]; [8; 1]; [8; 1]; [7; 0]] ++ repeat [5; 5] 9)]).
  { vm_compute. auto 10. }
  rewrite E0 in F. cbv zeta in F. destruct F as (-> & F1 & F2 & F3 & F4 & F5).
  set (y1 := kexec (s3_body ex_n5) (clients_init st0 ex_bunch) s1) in *.
  set (y2 := kexec (s3_body ex_n5) y1 s2) in *.
  exists st0, y1, y2, (kexec (s3_body ex_n5) y2 s3), [ex_watch].
  split; [reflexivity|]. split; [apply kexec_reach, reach_refl|]. split; [exact F1|]. split; [exact F2|].
  split; [apply kexec_reach, reach_refl|]. split; [exact F3|]. split; [exact F4|]. split; [apply kexec_reach, reach_refl|].
  exact F5.
Qed.

(** Refuted: that reads show the array at some moment, chunk by chunk, also while chunks
    are removed.  Without compression in zarr the read above returns, and shows in place
    of the removed chunk the elements of the chunk read before, which this place of the
    array has at no moment. *)
Theorem C116_removed_refuted :
  dataset_ok ex_zarr /\ can_write (d_mode ex_zarr) = true /\ plain_bytes ex_zarr /\
  Forall (array_op_ok ex_zarr) ex_past /\ Forall (Forall (client_call_ok ex_zarr)) ex_bunch /\
  exists st0 y out', run_array_ops ex_zarr ex_past (fun _ => None) = (st0, Ok tt) /\
    reach (clients_step (s3_body ex_zarr)) (clients_init st0 ex_bunch) y /\ answers_to 1 (k_log y) = [Ok out'] /\
    getN out' 2 = Ok [9; 1] /\
    forall j cs, nth_error ex_bunch 0 = Some cs ->
      apply_ops ex_zarr (ops_of (firstn j cs)) (apply_ops ex_zarr ex_past (fun _ => d_fill ex_zarr)) [0; 2] <> [9; 1].
Proof.
  destruct (@ex_trio_ok ex_zarr (or_intror Logic.eq_refl)) as (P1 & _). destruct (@ex_bunch_ok ex_zarr (or_intror Logic.eq_refl)) as (P2 & P3).
  split; [exact ex_zarr_ok|]. split; [reflexivity|].
  split; [split; reflexivity|]. split; [exact P1|]. split; [exact P2|].
  destruct (run_array_ops ex_zarr ex_past (fun _ => None)) as [st0 r] eqn:E0.
  set (s1 := repeat 0%nat 5 ++ repeat 1%nat 8 ++ repeat 0%nat 3 ++ repeat 1%nat 80).
  assert (F : let (st0, r) := run_array_ops ex_zarr ex_past (fun _ => None) in
    r = Ok tt /\ answers_to 1 (k_log (kexec (s3_body ex_zarr) (clients_init st0 ex_bunch) s1)) =
      [Ok (repeat [9; 1] 6 ++ repeat [5; 5] 9)]).
  { vm_compute. auto. }
  rewrite E0 in F. destruct F as (-> & F).
  exists st0. eexists. eexists. split; [reflexivity|]. split; [apply kexec_reach, reach_refl|]. split; [exact F|].
  split; [reflexivity|]. intros j cs E. injection E as <-. destruct j as [|[|[|[|j]]]]; vm_compute; discriminate.
Qed.
Print Assumptions C116_removed_refuted.

(** Shards: the first call has written one of the shards. *)
Example C116_sharded_case : sharded_ok ex_sharded /\ can_write (d_mode (sd_base ex_sharded)) = true /\
  Forall (array_op_ok (sd_base ex_sharded)) [ex_all [9; 1]] /\ Forall (Forall (client_call_ok (sd_base ex_sharded))) ex_pair /\
  (forall t cs, t <> 0%nat -> nth_error ex_pair t = Some cs -> Forall read_only cs) /\
  exists st0 y1 y2, run_sharded_ops ex_sharded [ex_all [9; 1]] (fun _ => None) = (st0, Ok tt) /\
    reach (clients_step (s3_sharded_body ex_sharded)) (clients_init st0 ex_pair) y1 /\
    nth_error (k_clients y1) 1 = Some (KIdle, [ex_look]) /\ answers_to 1 (k_log y1) = [] /\
    reach (clients_step (s3_sharded_body ex_sharded)) y1 y2 /\
    answers_to 1 (k_log y2) = [Ok (repeat [8; 1] 2 ++ [[9; 1]] ++ repeat [8; 1] 2 ++ [[9; 1]] ++ repeat [8; 1] 2 ++ [[9; 1]] ++
      repeat [8; 1] 2 ++ repeat [9; 1] 4)].
Proof.
  destruct ex_pair_ok as (P1 & P2 & P3). split; [exact ex_sharded_ok|]. split; [reflexivity|].
  split; [exact P1|]. split; [exact P2|]. split; [exact P3|].
  destruct (run_sharded_ops ex_sharded [ex_all [9; 1]] (fun _ => None)) as [st0 r] eqn:E0.
  set (s1 := repeat 0%nat 3). set (s2 := repeat 1%nat 80).
  assert (F : let (st0, r) := run_sharded_ops ex_sharded [ex_all [9; 1]] (fun _ => None) in
    r = Ok tt /\ let y1 := kexec (s3_sharded_body ex_sharded) (clients_init st0 ex_pair) s1 in
    let y2 := kexec (s3_sharded_body ex_sharded) y1 s2 in
    nth_error (k_clients y1) 1 = Some (KIdle, [ex_look]) /\ answers_to 1 (k_log y1) = [] /\
    answers_to 1 (k_log y2) = [Ok (repeat [8; 1] 2 ++ [[9; 1]] ++ repeat [8; 1] 2 ++ [[9; 1]] ++ repeat [8; 1] 2 ++ [[9; 1]] ++
      repeat [8; 1] 2 ++ repeat [9; 1] 4)]) by (vm_compute; auto 10).
  rewrite E0 in F. cbv zeta in F. destruct F as (-> & F1 & F2 & F3).
  set (y1 := kexec (s3_sharded_body ex_sharded) (clients_init st0 ex_pair) s1) in *.
  exists st0, y1, (kexec (s3_sharded_body ex_sharded) y1 s2).
  split; [reflexivity|]. split; [apply kexec_reach, reach_refl|]. split; [exact F1|]. split; [exact F2|].
  split; [apply kexec_reach, reach_refl|]. exact F3.
Qed.
