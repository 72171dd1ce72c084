(** Property C111: readers of a sharded array that another client changes. *)
From Verif Require Import M_Base M_Text M_Key M_Blocking M_View M_Bytes M_N5Header M_Format
  M_Mode M_Shard M_Dataset M_Sharded M_Access M_Pool M_Parallel M_Lock M_Clients
  S_Array S_Grid S_Bytes S_Text S_Format S_Shard S_Dataset S_Sharded S_Access S_Lock S_Clients S_Readers
  P_Base P_Pool P_Lock P_Clients P_Clients2 P_Readers P_Readers2 Properties_Dataset Properties_Access Properties_Sharded.
Import List ListNotations.
Local Open Scope list_scope.
Local Open Scope N_scope.

(** C111: after a history [pre], client [wr] of a sharded dataset makes the calls [cs]
    while any number of other clients read, without coordination.  A reader starts a
    read after the moment [y1] and has its answer at the moment [y2].  In every
    interleaving of the accesses to the files:
    - the read shows, for each shard, the elements of the array as it was after some
      number of the writer's calls: at least those that had returned at [y1], at most
      those that had returned at [y2] and the one under way; or
    - it throws, and then one of the writer's calls in this time changes a shard that
      the region meets. *)
Theorem C111_reader sd pre st00 st0 calls wr cs y1 y2 t ov off out rest r : sharded_ok sd ->
  can_write (d_mode (sd_base sd)) = true -> Forall (array_op_ok (sd_base sd)) pre ->
  (forall c, valid_chunk (d_shape (sd_base sd)) (d_chunks (sd_base sd)) c -> st00 (shard_key sd c) = None) ->
  run_sharded_ops sd pre st00 = (st0, Ok tt) ->
  Forall (Forall (client_call_ok (sd_base sd))) calls -> nth_error calls wr = Some cs ->
  (forall t' cs', t' <> wr -> nth_error calls t' = Some cs' -> Forall read_only cs') ->
  reach (clients_step (sharded_body sd)) (clients_init st0 calls) y1 -> t <> wr ->
  nth_error (k_clients y1) t = Some (KIdle, KRead ov off out :: rest) ->
  reach (clients_step (sharded_body sd)) y1 y2 ->
  nth_error (answers_to t (k_log y2)) (List.length (answers_to t (k_log y1))) = Some r ->
  let a0 := apply_ops (sd_base sd) pre (fun _ => d_fill (sd_base sd)) in
  let lo := List.length (calls_by wr (k_log y1)) in
  let hi := List.length (calls_by wr (k_log y2)) in
  (exists moment out', r = Ok out' /\ (forall k, (lo <= moment k <= S hi)%nat) /\
     shows_region (sd_base sd) (patchwork sd cs a0 moment) ov off out out') \/
  (r = Throw ERuntime /\ exists j c x z, (lo <= j <= hi)%nat /\ nth_error cs j = Some c /\ changes (sd_base sd) c x /\
     overlaps (d_shape (sd_base sd)) (d_chunks (sd_base sd)) off (v_shape ov) z /\ shard_of (sd_cps sd) x = shard_of (sd_cps sd) z).
Proof. exact (@sharded_reader sd pre st00 st0 calls wr cs y1 y2 t ov off out rest r). Qed.
Print Assumptions C111_reader.

(** A writer that changes all elements twice, and two readers of them. *)
Definition ex_all (v : cell) : array_op := AWrite [0; 0] [5; 3] (FromScalar v).
Definition ex_look : client_call := KRead (View 0 [5; 3] [3; 1]) [0; 0] (repeat [1; 1] 15).
Definition ex_pair : list (list client_call) := [[KOp (ex_all [8; 1]); KOp (ex_all [6; 1])]; [ex_look]; [ex_look; ex_look]].

Lemma ex_pair_ok : Forall (array_op_ok (sd_base ex_sharded)) [ex_all [9; 1]] /\ Forall (Forall (client_call_ok (sd_base ex_sharded))) ex_pair /\
  (forall t cs, t <> 0%nat -> nth_error ex_pair t = Some cs -> Forall read_only cs).
Proof.
  assert (V : out_view_ok (View 0 [5; 3] [3; 1]) 15).
  { split; [reflexivity|]. split.
    - intros i Hi. inversion Hi as [|x0 ? ? ? H1 Hi']; subst. inversion Hi' as [|x1 ? ? ? H2 Hi2]; subst.
      inversion Hi2; subst. cbn [lin v_off v_strides]. lia.
    - intros i j Hi Hj. inversion Hi as [|x0 ? ? ? H1 Hi']; subst. inversion Hi' as [|x1 ? ? ? H2 Hi2]; subst.
      inversion Hi2; subst. inversion Hj as [|y0 ? ? ? G1 Hj']; subst. inversion Hj' as [|y1 ? ? ? G2 Hj2]; subst.
      inversion Hj2; subst. cbn [lin v_off v_strides]. intros E. assert (x0 = y0) by lia. assert (x1 = y1) by lia. congruence. }
  assert (B : forall x y : N, x < 256 -> y < 256 -> lenN [x; y] = 2 /\ Forall is_byte [x; y])
    by (intros; repeat constructor; auto).
  split; [|split].
  - apply Forall_cons; [|constructor]. cbn [array_op_ok ex_all]. split; [split; cbn; lia|]. apply B; lia.
  - unfold ex_pair, ex_look, ex_all. repeat (apply Forall_cons || apply Forall_nil); cbn [client_call_ok array_op_ok].
    all: split; [split; cbn; lia|]. all: try (apply B; lia). all: exact V.
  - intros [|[|[|t]]] cs Ht E; [congruence| | |destruct t; discriminate]; injection E as <-; repeat constructor.
Qed.

(** One reader gets the first shard after the first call and the others before, the other
    reader an exception. *)
Example C111_case : sharded_ok ex_sharded /\ can_write (d_mode (sd_base ex_sharded)) = true /\
  Forall (array_op_ok (sd_base ex_sharded)) [ex_all [9; 1]] /\ Forall (Forall (client_call_ok (sd_base ex_sharded))) ex_pair /\
  (forall t cs, t <> 0%nat -> nth_error ex_pair t = Some cs -> Forall read_only cs) /\
  exists st0 y1 y2 y3 rest, run_sharded_ops ex_sharded [ex_all [9; 1]] (fun _ => None) = (st0, Ok tt) /\
    reach (clients_step (sharded_body ex_sharded)) (clients_init st0 ex_pair) y1 /\
    nth_error (k_clients y1) 1 = Some (KIdle, [ex_look]) /\ answers_to 1 (k_log y1) = [] /\
    reach (clients_step (sharded_body ex_sharded)) y1 y2 /\
    answers_to 1 (k_log y2) = [Ok (repeat [8; 1] 2 ++ [[9; 1]] ++ repeat [8; 1] 2 ++ [[9; 1]] ++ repeat [8; 1] 2 ++ [[9; 1]] ++
      repeat [8; 1] 2 ++ repeat [9; 1] 4)] /\
    nth_error (k_clients y2) 2 = Some (KIdle, ex_look :: rest) /\ reach (clients_step (sharded_body ex_sharded)) y2 y3 /\
    answers_to 2 (k_log y3) = [Throw ERuntime].
Proof.
  destruct ex_pair_ok as (P1 & P2 & P3). split; [exact ex_sharded_ok|]. split; [reflexivity|].
  split; [exact P1|]. split; [exact P2|]. split; [exact P3|].
  destruct (run_sharded_ops ex_sharded [ex_all [9; 1]] (fun _ => None)) as [st0 r] eqn:E0.
  set (s1 := repeat 0%nat 4). set (s2 := repeat 1%nat 80). set (s3 := repeat 0%nat 2 ++ repeat 2%nat 15).
  assert (F : let (st0, r) := run_sharded_ops ex_sharded [ex_all [9; 1]] (fun _ => None) in
    r = Ok tt /\ let y1 := kexec (sharded_body ex_sharded) (clients_init st0 ex_pair) s1 in
    let y2 := kexec (sharded_body ex_sharded) y1 s2 in let y3 := kexec (sharded_body ex_sharded) y2 s3 in
    nth_error (k_clients y1) 1 = Some (KIdle, [ex_look]) /\ answers_to 1 (k_log y1) = [] /\
    answers_to 1 (k_log y2) = [Ok (repeat [8; 1] 2 ++ [[9; 1]] ++ repeat [8; 1] 2 ++ [[9; 1]] ++ repeat [8; 1] 2 ++ [[9; 1]] ++
      repeat [8; 1] 2 ++ repeat [9; 1] 4)] /\
    nth_error (k_clients y2) 2 = Some (KIdle, [ex_look; ex_look]) /\
    answers_to 2 (k_log y3) = [Throw ERuntime]) by (vm_compute; auto 10).
  rewrite E0 in F. cbv zeta in F. destruct F as (-> & F1 & F2 & F3 & F4 & F5).
  set (y1 := kexec (sharded_body ex_sharded) (clients_init st0 ex_pair) s1) in *.
  set (y2 := kexec (sharded_body ex_sharded) y1 s2) in *.
  exists st0, y1, y2, (kexec (sharded_body ex_sharded) y2 s3), [ex_look].
  split; [reflexivity|]. split; [apply kexec_reach, reach_refl|]. split; [exact F1|]. split; [exact F2|].
  split; [apply kexec_reach, reach_refl|]. split; [exact F3|]. split; [exact F4|]. split; [apply kexec_reach, reach_refl|].
  exact F5.
Qed.

(** Refuted: that a read shows the array as it was at one moment. *)
Theorem C111_snapshot_refuted :
  exists st0 y out', run_sharded_ops ex_sharded [ex_all [9; 1]] (fun _ => None) = (st0, Ok tt) /\
    reach (clients_step (sharded_body ex_sharded)) (clients_init st0 ex_pair) y /\
    answers_to 1 (k_log y) = [Ok out'] /\
    forall j, ~ shows_region (sd_base ex_sharded)
      (apply_ops (sd_base ex_sharded) (ops_of (firstn j [KOp (ex_all [8; 1]); KOp (ex_all [6; 1])]))
         (apply_ops (sd_base ex_sharded) [ex_all [9; 1]] (fun _ => d_fill (sd_base ex_sharded))))
      (View 0 [5; 3] [3; 1]) [0; 0] (repeat [1; 1] 15) out'.
Proof.
  destruct C111_case as (_ & _ & _ & _ & _ & st0 & y1 & y2 & _ & _ & E & R1 & _ & _ & R2 & A & _).
  eexists st0, y2, _. split; [exact E|]. split; [exact (reach_trans R1 R2)|]. split; [exact A|].
  intros j (_ & H & _).
  assert (I0 : in_shape [5; 3] [0; 0]) by (repeat constructor; lia).
  assert (I2 : in_shape [5; 3] [0; 2]) by (repeat constructor; lia).
  destruct (H [0; 0] I0) as (v & V1 & _ & V2). destruct (H [0; 2] I2) as (u & U1 & _ & U2).
  specialize (V2 Logic.eq_refl). specialize (U2 Logic.eq_refl). subst v u. clear H A R1 R2 E.
  destruct j as [|[|j]]; [| |destruct j]; vm_compute in V1, U1; congruence.
Qed.
Print Assumptions C111_snapshot_refuted.
