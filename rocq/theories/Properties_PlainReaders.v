(** Property C112: readers of an array without shards that another client changes. *)
From Verif Require Import M_Base M_Text M_Key M_Blocking M_View M_Bytes M_N5Header M_Format
  M_Mode M_Shard M_Dataset M_Sharded M_Access M_Pool M_Parallel M_Lock M_Clients
  S_Array S_Grid S_Bytes S_Text S_Format S_Shard S_Dataset S_Sharded S_Access S_Lock S_Clients S_Readers
  P_Base P_Pool P_Lock P_Clients P_Clients2 P_Readers P_Readers3 Properties_Dataset Properties_Access.
Import List ListNotations.
Local Open Scope list_scope.
Local Open Scope N_scope.

(** C112: after a history [pre], client [wr] of a dataset without shards makes the calls
    [cs] while any number of other clients read, without coordination.  A reader starts
    a read after the moment [y1] and has its answer at the moment [y2].  In every
    interleaving of the accesses to the files, if readers notice empty files (n5, or a
    codec that refuses them):
    - the read shows, for each chunk, its elements after some number of the writer's
      calls: at least those that had returned at [y1], at most those that had returned
      at [y2] and the one under way; or
    - it throws, and then one of the writer's calls in this time changes a chunk that
      the region meets. *)
Theorem C112_reader d pre st00 st0 calls wr cs y1 y2 t ov off out rest r : dataset_ok d ->
  can_write (d_mode d) = true -> Forall (array_op_ok d) pre ->
  (forall c, valid_chunk (d_shape d) (d_chunks d) c -> st00 (chunk_key (d_key d) c) = None) ->
  run_array_ops d pre st00 = (st0, Ok tt) ->
  Forall (Forall (client_call_ok d)) calls -> nth_error calls wr = Some cs ->
  (forall t' cs', t' <> wr -> nth_error calls t' = Some cs' -> Forall read_only cs') ->
  reach (clients_step (plain_body d)) (clients_init st0 calls) y1 -> t <> wr ->
  nth_error (k_clients y1) t = Some (KIdle, KRead ov off out :: rest) ->
  reach (clients_step (plain_body d)) y1 y2 ->
  nth_error (answers_to t (k_log y2)) (List.length (answers_to t (k_log y1))) = Some r ->
  let a0 := apply_ops d pre (fun _ => d_fill d) in
  let lo := List.length (calls_by wr (k_log y1)) in
  let hi := List.length (calls_by wr (k_log y2)) in
  empty_rejected d ->
  (exists moment out', r = Ok out' /\ (forall c, (lo <= moment c <= S hi)%nat) /\
     shows_region d (chunk_patchwork d cs a0 moment) ov off out out') \/
  (r = Throw ERuntime /\ exists j call c, (lo <= j <= hi)%nat /\ nth_error cs j = Some call /\ changes d call c /\
     overlaps (d_shape d) (d_chunks d) off (v_shape ov) c).
Proof. intros ok Hw. exact (@plain_reader d ok Hw pre st00 st0 calls wr cs y1 y2 t ov off out rest r). Qed.
Print Assumptions C112_reader.

(** Without compression zarr files have no structure: the read never throws, and the
    elements of chunks that a call in this time changes can be anything.  All others
    are shown as above. *)
Theorem C112_raw d pre st00 st0 calls wr cs y1 y2 t ov off out rest r : dataset_ok d ->
  can_write (d_mode d) = true -> Forall (array_op_ok d) pre ->
  (forall c, valid_chunk (d_shape d) (d_chunks d) c -> st00 (chunk_key (d_key d) c) = None) ->
  run_array_ops d pre st00 = (st0, Ok tt) ->
  Forall (Forall (client_call_ok d)) calls -> nth_error calls wr = Some cs ->
  (forall t' cs', t' <> wr -> nth_error calls t' = Some cs' -> Forall read_only cs') ->
  reach (clients_step (plain_body d)) (clients_init st0 calls) y1 -> t <> wr ->
  nth_error (k_clients y1) t = Some (KIdle, KRead ov off out :: rest) ->
  reach (clients_step (plain_body d)) y1 y2 ->
  nth_error (answers_to t (k_log y2)) (List.length (answers_to t (k_log y1))) = Some r ->
  let a0 := apply_ops d pre (fun _ => d_fill d) in
  let lo := List.length (calls_by wr (k_log y1)) in
  let hi := List.length (calls_by wr (k_log y2)) in
  plain_bytes d ->
  exists moment out', r = Ok out' /\ (forall c, (lo <= moment c <= S hi)%nat) /\
    shows_except d (fun c => exists j call, (lo <= j <= hi)%nat /\ nth_error cs j = Some call /\ changes d call c)
      (chunk_patchwork d cs a0 moment) ov off out out'.
Proof. intros ok Hw. exact (@raw_reader d ok Hw pre st00 st0 calls wr cs y1 y2 t ov off out rest r). Qed.
Print Assumptions C112_raw.

(** A writer that changes all elements and then one chunk, and two readers. *)
Definition ex_every (v : cell) : array_op := AWrite [0; 0] [5; 3] (FromScalar v).
Definition ex_past : list array_op := [ex_every [5; 5]; AWrite [0; 0] [2; 2] (FromScalar [9; 1])].
Definition ex_watch : client_call := KRead (View 0 [5; 3] [3; 1]) [0; 0] (repeat [1; 1] 15).
Definition ex_trio : list (list client_call) :=
  [[KOp (AWrite [0; 2] [2; 1] (FromScalar [6; 6])); KOp (ex_every [8; 1])]; [ex_watch]; [ex_watch; ex_watch]].

Lemma ex_trio_ok d : d = ex_n5 \/ d = ex_zarr -> Forall (array_op_ok d) ex_past /\ Forall (Forall (client_call_ok d)) ex_trio /\
  (forall t cs, t <> 0%nat -> nth_error ex_trio t = Some cs -> Forall read_only cs).
Proof.
  assert (V : out_view_ok (View 0 [5; 3] [3; 1]) 15).
  { split; [reflexivity|]. split.
    - intros i Hi. inversion Hi as [|x0 ? ? ? H1 Hi']; subst. inversion Hi' as [|x1 ? ? ? H2 Hi2]; subst.
      inversion Hi2; subst. cbn [lin v_off v_strides]. lia.
    - intros i j Hi Hj. inversion Hi as [|x0 ? ? ? H1 Hi']; subst. inversion Hi' as [|x1 ? ? ? H2 Hi2]; subst.
      inversion Hi2; subst. inversion Hj as [|y0 ? ? ? G1 Hj']; subst. inversion Hj' as [|y1 ? ? ? G2 Hj2]; subst.
      inversion Hj2; subst. cbn [lin v_off v_strides]. intros E. assert (x0 = y0) by lia. assert (x1 = y1) by lia. congruence. }
  assert (B : forall x y : N, x < 256 -> y < 256 -> lenN [x; y] = 2 /\ Forall is_byte [x; y])
    by (intros; repeat constructor; auto).
  intros D. split; [|split].
  - unfold ex_past, ex_every. destruct D as [-> | ->]; repeat (apply Forall_cons || apply Forall_nil); cbn [array_op_ok].
    all: split; [split; cbn; lia|]. all: apply B; lia.
  - unfold ex_trio, ex_watch, ex_every. destruct D as [-> | ->]; repeat (apply Forall_cons || apply Forall_nil); cbn [client_call_ok array_op_ok].
    all: split; [split; cbn; lia|]. all: try (apply B; lia). all: exact V.
  - intros [|[|[|t]]] cs Ht E; [congruence| | |destruct t; discriminate]; injection E as <-; repeat constructor.
Qed.

(** n5: the first reader gets an exception while the file of the chunk is empty, the
    second one the new chunk and, of the second call, the first chunk only. *)
Example C112_case : dataset_ok ex_n5 /\ can_write (d_mode ex_n5) = true /\ empty_rejected ex_n5 /\
  Forall (array_op_ok ex_n5) ex_past /\ Forall (Forall (client_call_ok ex_n5)) ex_trio /\
  (forall t cs, t <> 0%nat -> nth_error ex_trio t = Some cs -> Forall read_only cs) /\
  exists st0 y1 y2 y3 rest, run_array_ops ex_n5 ex_past (fun _ => None) = (st0, Ok tt) /\
    reach (clients_step (plain_body ex_n5)) (clients_init st0 ex_trio) y1 /\
    nth_error (k_clients y1) 1 = Some (KIdle, [ex_watch]) /\ answers_to 1 (k_log y1) = [] /\
    reach (clients_step (plain_body ex_n5)) y1 y2 /\ answers_to 1 (k_log y2) = [Throw ERuntime] /\
    nth_error (k_clients y2) 2 = Some (KIdle, ex_watch :: rest) /\ reach (clients_step (plain_body ex_n5)) y2 y3 /\
    answers_to 2 (k_log y3) = [Ok ([[8; 1]; [8; 1]; [6; 6]; [8; 1]; [8; 1]; [6; 6]] ++ repeat [5; 5] 9)].
Proof.
  destruct (@ex_trio_ok ex_n5 (or_introl Logic.eq_refl)) as (P1 & P2 & P3). split; [exact ex_n5_ok|]. split; [reflexivity|].
  split; [left; reflexivity|]. split; [exact P1|]. split; [exact P2|]. split; [exact P3|].
  destruct (run_array_ops ex_n5 ex_past (fun _ => None)) as [st0 r] eqn:E0.
  set (s1 := repeat 0%nat 4). set (s2 := repeat 1%nat 80). set (s3 := repeat 0%nat 7 ++ repeat 2%nat 34).
  assert (F : let (st0, r) := run_array_ops ex_n5 ex_past (fun _ => None) in
    r = Ok tt /\ let y1 := kexec (plain_body ex_n5) (clients_init st0 ex_trio) s1 in
    let y2 := kexec (plain_body ex_n5) y1 s2 in let y3 := kexec (plain_body ex_n5) y2 s3 in
    nth_error (k_clients y1) 1 = Some (KIdle, [ex_watch]) /\ answers_to 1 (k_log y1) = [] /\
    answers_to 1 (k_log y2) = [Throw ERuntime] /\
    nth_error (k_clients y2) 2 = Some (KIdle, [ex_watch; ex_watch]) /\
    answers_to 2 (k_log y3) = [Ok ([[8; 1]; [8; 1]; [6; 6]; [8; 1]; [8; 1]; [6; 6]] ++ repeat [5; 5] 9)]).
  { vm_compute. auto 10. }
  rewrite E0 in F. cbv zeta in F. destruct F as (-> & F1 & F2 & F3 & F4 & F5).
  set (y1 := kexec (plain_body ex_n5) (clients_init st0 ex_trio) s1) in *.
  set (y2 := kexec (plain_body ex_n5) y1 s2) in *.
  exists st0, y1, y2, (kexec (plain_body ex_n5) y2 s3), [ex_watch].
  split; [reflexivity|]. split; [apply kexec_reach, reach_refl|]. split; [exact F1|]. split; [exact F2|].
  split; [apply kexec_reach, reach_refl|]. split; [exact F3|]. split; [exact F4|]. split; [apply kexec_reach, reach_refl|].
  exact F5.
Qed.

(** zarr without compression: the same moment. *)
Example C112_raw_case : dataset_ok ex_zarr /\ can_write (d_mode ex_zarr) = true /\ plain_bytes ex_zarr /\
  Forall (array_op_ok ex_zarr) ex_past /\ Forall (Forall (client_call_ok ex_zarr)) ex_trio /\
  (forall t cs, t <> 0%nat -> nth_error ex_trio t = Some cs -> Forall read_only cs) /\
  exists st0 y1 y2, run_array_ops ex_zarr ex_past (fun _ => None) = (st0, Ok tt) /\
    reach (clients_step (plain_body ex_zarr)) (clients_init st0 ex_trio) y1 /\
    nth_error (k_clients y1) 1 = Some (KIdle, [ex_watch]) /\ answers_to 1 (k_log y1) = [] /\
    reach (clients_step (plain_body ex_zarr)) y1 y2 /\
    answers_to 1 (k_log y2) = [Ok (repeat [9; 1] 6 ++ repeat [5; 5] 9)].
Proof.
  destruct (@ex_trio_ok ex_zarr (or_intror Logic.eq_refl)) as (P1 & P2 & P3). split; [exact ex_zarr_ok|]. split; [reflexivity|].
  split; [split; reflexivity|]. split; [exact P1|]. split; [exact P2|]. split; [exact P3|].
  destruct (run_array_ops ex_zarr ex_past (fun _ => None)) as [st0 r] eqn:E0.
  set (s1 := repeat 0%nat 4). set (s2 := repeat 1%nat 80).
  assert (F : let (st0, r) := run_array_ops ex_zarr ex_past (fun _ => None) in
    r = Ok tt /\ let y1 := kexec (plain_body ex_zarr) (clients_init st0 ex_trio) s1 in
    let y2 := kexec (plain_body ex_zarr) y1 s2 in
    nth_error (k_clients y1) 1 = Some (KIdle, [ex_watch]) /\ answers_to 1 (k_log y1) = [] /\
    answers_to 1 (k_log y2) = [Ok (repeat [9; 1] 6 ++ repeat [5; 5] 9)]).
  { vm_compute. auto 10. }
  rewrite E0 in F. cbv zeta in F. destruct F as (-> & F1 & F2 & F3).
  set (y1 := kexec (plain_body ex_zarr) (clients_init st0 ex_trio) s1) in *.
  exists st0, y1, (kexec (plain_body ex_zarr) y1 s2).
  split; [reflexivity|]. split; [apply kexec_reach, reach_refl|]. split; [exact F1|]. split; [exact F2|].
  split; [apply kexec_reach, reach_refl|]. exact F3.
Qed.

(** Refuted for zarr without compression: the read succeeds, and where the file was
    empty it shows the elements of the chunk read before, which this place of the array
    has at no moment. *)
Theorem C112_stale_refuted :
  exists st0 y out', run_array_ops ex_zarr ex_past (fun _ => None) = (st0, Ok tt) /\
    reach (clients_step (plain_body ex_zarr)) (clients_init st0 ex_trio) y /\ answers_to 1 (k_log y) = [Ok out'] /\
    getN out' 2 = Ok [9; 1] /\
    forall j, apply_ops ex_zarr (ops_of (firstn j [KOp (AWrite [0; 2] [2; 1] (FromScalar [6; 6])); KOp (ex_every [8; 1])]))
      (apply_ops ex_zarr ex_past (fun _ => d_fill ex_zarr)) [0; 2] <> [9; 1].
Proof.
  destruct C112_raw_case as (_ & _ & _ & _ & _ & _ & st0 & y1 & y2 & E & R1 & _ & _ & R2 & A).
  eexists st0, y2, _. split; [exact E|]. split; [exact (reach_trans R1 R2)|]. split; [exact A|]. split; [reflexivity|].
  intros [|[|[|j]]]; vm_compute; discriminate.
Qed.
Print Assumptions C112_stale_refuted.
