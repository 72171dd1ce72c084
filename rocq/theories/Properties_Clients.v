(** Property C96: clients that use one dataset side by side. *)
From Verif Require Import M_Base M_Text M_Key M_Blocking M_View M_Bytes M_N5Header M_Format
  M_Mode M_Shard M_Dataset M_Sharded M_Access M_Pool M_Parallel M_Lock M_Clients
  S_Array S_Grid S_Bytes S_Text S_Format S_Shard S_Dataset S_Sharded S_Access S_Lock S_Clients
  P_Base P_Pool P_Lock P_Clients P_Clients2 Properties_Dataset Properties_Access Properties_Sharded.
Import List ListNotations.
Local Open Scope list_scope.
Local Open Scope N_scope.

(** C96, plain datasets: after a history [pre], several threads or processes use the
    dataset without coordination, and no client changes a chunk that a call of another
    client is about.  In every interleaving of their accesses to the files, at every
    moment:
    - the answers a client has got are those of an array that only it uses;
    - while a client is between two calls, all readers of regions whose chunks no other
      client changes see this array, whatever the other clients are doing.
    When all calls have returned, the files and the array are those of any sequence of
    all calls in which each client's calls keep their order. *)
Theorem C96_plain d pre st00 st0 calls y : dataset_ok d -> can_write (d_mode d) = true -> Forall (array_op_ok d) pre ->
  (forall c, valid_chunk (d_shape d) (d_chunks d) c -> st00 (chunk_key (d_key d) c) = None) ->
  run_array_ops d pre st00 = (st0, Ok tt) ->
  Forall (Forall (client_call_ok d)) calls -> apart d (fun x => x) calls ->
  reach (clients_step (plain_body d)) (clients_init st0 calls) y ->
  let a0 := apply_ops d pre (fun _ => d_fill d) in
  (forall t cs, nth_error calls t = Some cs -> exists rest, cs = calls_by t (k_log y) ++ rest /\
     answers_of d a0 (calls_by t (k_log y)) (answers_to t (k_log y)) /\ (all_answered y -> rest = []) /\
     (forall x ov off out, nth_error (k_clients y) t = Some (KIdle, x) ->
        region_ok d off (v_shape ov) -> out_view_ok ov (lenN out) ->
        (forall t' cs' c u v, t' <> t -> nth_error calls t' = Some cs' -> In c cs' -> changes d c u ->
           overlaps (d_shape d) (d_chunks d) off (v_shape ov) v -> u <> v) ->
        exists out', read_subarray d (k_files y) ov off out = Ok out' /\
          shows_region d (apply_ops d (ops_of (calls_by t (k_log y))) a0) ov off out out')) /\
  (forall order, interleaving calls order -> all_answered y ->
     (exists st2, run_array_ops d (ops_of order) st0 = (st2, Ok tt) /\ forall k, k_files y k = st2 k) /\
     forall ov off out, region_ok d off (v_shape ov) -> out_view_ok ov (lenN out) ->
       exists out', read_subarray d (k_files y) ov off out = Ok out' /\
         shows_region d (apply_ops d (ops_of order) a0) ov off out out').
Proof. intros H Hw. exact (@plain_clients d H Hw pre st00 st0 calls y). Qed.
Print Assumptions C96_plain.

(** C96, sharded datasets: the same if no client changes a chunk in a shard that a call
    of another client is about. *)
Theorem C96_sharded sd pre st00 st0 calls y : sharded_ok sd -> can_write (d_mode (sd_base sd)) = true ->
  Forall (array_op_ok (sd_base sd)) pre ->
  (forall c, valid_chunk (d_shape (sd_base sd)) (d_chunks (sd_base sd)) c -> st00 (shard_key sd c) = None) ->
  run_sharded_ops sd pre st00 = (st0, Ok tt) ->
  Forall (Forall (client_call_ok (sd_base sd))) calls -> apart (sd_base sd) (shard_of (sd_cps sd)) calls ->
  reach (clients_step (sharded_body sd)) (clients_init st0 calls) y ->
  let a0 := apply_ops (sd_base sd) pre (fun _ => d_fill (sd_base sd)) in
  (forall t cs, nth_error calls t = Some cs -> exists rest, cs = calls_by t (k_log y) ++ rest /\
     answers_of (sd_base sd) a0 (calls_by t (k_log y)) (answers_to t (k_log y)) /\ (all_answered y -> rest = []) /\
     (forall x ov off out, nth_error (k_clients y) t = Some (KIdle, x) ->
        region_ok (sd_base sd) off (v_shape ov) -> out_view_ok ov (lenN out) ->
        (forall t' cs' c u v, t' <> t -> nth_error calls t' = Some cs' -> In c cs' -> changes (sd_base sd) c u ->
           overlaps (d_shape (sd_base sd)) (d_chunks (sd_base sd)) off (v_shape ov) v ->
           shard_of (sd_cps sd) u <> shard_of (sd_cps sd) v) ->
        exists out', sh_read_subarray sd (k_files y) ov off out = Ok out' /\
          shows_region (sd_base sd) (apply_ops (sd_base sd) (ops_of (calls_by t (k_log y))) a0) ov off out out')) /\
  (forall order, interleaving calls order -> all_answered y ->
     (exists st2, run_sharded_ops sd (ops_of order) st0 = (st2, Ok tt) /\ forall k, k_files y k = st2 k) /\
     forall ov off out, region_ok (sd_base sd) off (v_shape ov) -> out_view_ok ov (lenN out) ->
       exists out', sh_read_subarray sd (k_files y) ov off out = Ok out' /\
         shows_region (sd_base sd) (apply_ops (sd_base sd) (ops_of order) a0) ov off out out').
Proof. exact (@sharded_clients sd pre st00 st0 calls y). Qed.
Print Assumptions C96_sharded.

(** C96: no client waits for another one, and all calls return. *)
Theorem C96_progress d y : (all_answered y \/ exists y', clients_step (plain_body d) y y') /\
  Acc (fun a b => clients_step (plain_body d) b a) y.
Proof. split; [apply clients_progress|apply clients_terminate]. Qed.
Print Assumptions C96_progress.
Theorem C96_sharded_progress sd y : (all_answered y \/ exists y', clients_step (sharded_body sd) y y') /\
  Acc (fun a b => clients_step (sharded_body sd) b a) y.
Proof. split; [apply clients_progress|apply clients_terminate]. Qed.
Print Assumptions C96_sharded_progress.

(** Three clients: two write to two columns of chunks and read them back, a third reads
    the last row. *)
Definition ex_clients : list (list client_call) :=
  [[KOp (AWrite [1; 0] [2; 2] (FromScalar [9; 1])); KRead (View 0 [3; 1] [1; 1]) [0; 1] (repeat [0; 0] 3)];
   [KOp (AWrite [0; 2] [4; 1] (FromScalar [8; 0])); KOp (ARemove [1; 1]); KRead (View 1 [4; 1] [1; 1]) [0; 2] (repeat [0; 0] 6)];
   [KRead (View 0 [1; 3] [3; 1]) [4; 0] (repeat [0; 0] 3)]].
Definition ex_pre : list array_op := [AWrite [4; 1] [1; 1] (FromScalar [5; 0])].
Definition ex_turns : list nat := List.concat (repeat [0; 2; 1]%nat 60).

Lemma ex_clients_ok : Forall (array_op_ok ex_zarr) ex_pre /\ Forall (Forall (client_call_ok ex_zarr)) ex_clients.
Proof.
  assert (V1 : out_view_ok (View 0 [3; 1] [1; 1]) 3).
  { split; [reflexivity|]. split.
    - intros i Hi. inversion Hi as [|x0 ? ? ? H1 Hi']; subst. inversion Hi' as [|x1 ? ? ? H2 Hi2]; subst.
      inversion Hi2; subst. cbn [lin v_off v_strides]. lia.
    - intros i j Hi Hj. inversion Hi as [|x0 ? ? ? H1 Hi']; subst. inversion Hi' as [|x1 ? ? ? H2 Hi2]; subst.
      inversion Hi2; subst. inversion Hj as [|y0 ? ? ? G1 Hj']; subst. inversion Hj' as [|y1 ? ? ? G2 Hj2]; subst.
      inversion Hj2; subst. cbn [lin v_off v_strides]. intros E. assert (x0 = y0) by lia. assert (x1 = y1) by lia. congruence. }
  assert (V2 : out_view_ok (View 1 [4; 1] [1; 1]) 6).
  { split; [reflexivity|]. split.
    - intros i Hi. inversion Hi as [|x0 ? ? ? H1 Hi']; subst. inversion Hi' as [|x1 ? ? ? H2 Hi2]; subst.
      inversion Hi2; subst. cbn [lin v_off v_strides]. lia.
    - intros i j Hi Hj. inversion Hi as [|x0 ? ? ? H1 Hi']; subst. inversion Hi' as [|x1 ? ? ? H2 Hi2]; subst.
      inversion Hi2; subst. inversion Hj as [|y0 ? ? ? G1 Hj']; subst. inversion Hj' as [|y1 ? ? ? G2 Hj2]; subst.
      inversion Hj2; subst. cbn [lin v_off v_strides]. intros E. assert (x0 = y0) by lia. assert (x1 = y1) by lia. congruence. }
  assert (V3 : out_view_ok (View 0 [1; 3] [3; 1]) 3).
  { split; [reflexivity|]. split.
    - intros i Hi. inversion Hi as [|x0 ? ? ? H1 Hi']; subst. inversion Hi' as [|x1 ? ? ? H2 Hi2]; subst.
      inversion Hi2; subst. cbn [lin v_off v_strides]. lia.
    - intros i j Hi Hj. inversion Hi as [|x0 ? ? ? H1 Hi']; subst. inversion Hi' as [|x1 ? ? ? H2 Hi2]; subst.
      inversion Hi2; subst. inversion Hj as [|y0 ? ? ? G1 Hj']; subst. inversion Hj' as [|y1 ? ? ? G2 Hj2]; subst.
      inversion Hj2; subst. cbn [lin v_off v_strides]. intros E. assert (x0 = y0) by lia. assert (x1 = y1) by lia. congruence. }
  assert (B : forall x y : N, x < 256 -> y < 256 -> lenN [x; y] = 2 /\ Forall is_byte [x; y])
    by (intros; repeat constructor; auto).
  split.
  - apply Forall_cons; [|constructor]. cbn [array_op_ok]. split; [split; cbn; lia|]. apply B; lia.
  - unfold ex_clients. repeat (apply Forall_cons || apply Forall_nil); cbn [client_call_ok array_op_ok].
    all: try (split; [split; cbn; lia|]).
    all: try (apply B; lia). all: try assumption. cbn. lia.
Qed.

(** The chunks of each client. *)
Lemma ex_about t cs c x : nth_error ex_clients t = Some cs -> In c cs -> about ex_zarr c x ->
  exists p q, x = [p; q] /\ match t with 0%nat => p < 2 /\ q = 0 | 1%nat => p < 2 /\ q = 1 | _ => p = 2 end.
Proof.
  assert (B : forall a b n m, overlaps [5; 3] [2; 2] [a; b] [n; m] x ->
    exists p q u v, x = [p; q] /\ a <= u < a + n /\ b <= v < b + m /\ p * 2 <= u < (p + 1) * 2 /\ q * 2 <= v < (q + 1) * 2 /\ u < 5 /\ v < 3).
  { intros a b n m (z & Hz & Hc). destruct x as [|p [|q [|? ?]]]; destruct z as [|u [|v [|? ?]]]; cbn in Hc; try tauto.
    inversion Hz as [|? ? ? ? ? ? Z1 Z2 Hz']; subst. inversion Hz' as [|? ? ? ? ? ? Z3 Z4 _]; subst.
    exists p, q, u, v. split; [reflexivity|]. lia. }
  intros Ht Hi Ha. destruct t as [|[|[|t]]]; [| | |destruct t; discriminate]; injection Ht as <-; cbn [In] in Hi;
    repeat (destruct Hi as [<- |Hi]); try destruct Hi; cbn [about op_about v_shape d_shape d_chunks ex_zarr] in Ha;
    try (apply B in Ha as (p & q & u & v & -> & Ha); exists p, q; split; [reflexivity|lia]).
  subst x. exists 1, 1. split; [reflexivity|lia].
Qed.
Lemma ex_changes t cs c x : nth_error ex_clients t = Some cs -> In c cs -> changes ex_zarr c x -> (t < 2)%nat /\ about ex_zarr c x.
Proof.
  intros Ht Hi Hc. split; [|destruct c; [destruct Hc|exact Hc]].
  destruct t as [|[|[|t]]]; [lia|lia| |destruct t; discriminate]. injection Ht as <-.
  destruct Hi as [<- |[]]. destruct Hc.
Qed.
Lemma ex_apart : apart ex_zarr (fun x => x) ex_clients /\ apart ex_zarr (shard_of [2; 1]) ex_clients.
Proof.
  split; intros i j cs cs' c c' x x' Hij Hi Hj Hc Hc' Hx Hx'; destruct (@ex_changes _ _ _ _ Hi Hc Hx) as [Li Ax];
    destruct (@ex_about _ _ _ _ Hi Hc Ax) as (p & q & -> & P); destruct (@ex_about _ _ _ _ Hj Hc' Hx') as (p' & q' & -> & P').
  - intros [= -> ->]. destruct i as [|[|i]]; [| |lia]; destruct j as [|[|j]]; lia.
  - unfold shard_of. cbn [map2]. intros [= E1 E2]. rewrite !N.div_1_r in E2. subst q'.
    destruct i as [|[|i]]; [| |lia]; (destruct j as [|[|j]]; [lia|lia|]); destruct P as [P _]; subst p';
      change (2 / 2) with 1 in E1; rewrite N.div_small in E1 by exact P; discriminate E1.
Qed.

Definition ex_answers : list (list (outcome (list cell))) :=
  [[Ok []; Ok [[7; 0]; [9; 1]; [9; 1]]];
   [Ok []; Ok []; Ok [[0; 0]; [8; 0]; [8; 0]; [7; 0]; [7; 0]; [0; 0]]];
   [Ok [[7; 0]; [5; 0]; [7; 0]]]].
Example C96_case : dataset_ok ex_zarr /\ sharded_ok ex_sharded /\
  Forall (array_op_ok ex_zarr) ex_pre /\ Forall (Forall (client_call_ok ex_zarr)) ex_clients /\
  apart ex_zarr (fun x => x) ex_clients /\ apart (sd_base ex_sharded) (shard_of (sd_cps ex_sharded)) ex_clients /\
  (exists st0 y, run_array_ops ex_zarr ex_pre (fun _ => None) = (st0, Ok tt) /\
     reach (clients_step (plain_body ex_zarr)) (clients_init st0 ex_clients) y /\ all_answered y /\
     map (fun t => answers_to t (k_log y)) [0; 1; 2]%nat = ex_answers) /\
  (exists st0 y, run_sharded_ops ex_sharded ex_pre (fun _ => None) = (st0, Ok tt) /\
     reach (clients_step (sharded_body ex_sharded)) (clients_init st0 ex_clients) y /\ all_answered y /\
     map (fun t => answers_to t (k_log y)) [0; 1; 2]%nat = ex_answers).
Proof.
  split; [exact ex_zarr_ok|]. split; [exact ex_sharded_ok|]. split; [apply ex_clients_ok|]. split; [apply ex_clients_ok|].
  split; [apply ex_apart|]. split.
  { destruct ex_apart as [_ H]. exact H. }
  split.
  - destruct (run_array_ops ex_zarr ex_pre (fun _ => None)) as [st0 r] eqn:E0.
    assert (F : let (st0, r) := run_array_ops ex_zarr ex_pre (fun _ => None) in
      r = Ok tt /\ let y := kexec (plain_body ex_zarr) (clients_init st0 ex_clients) ex_turns in
      k_clients y = repeat (KIdle, []) 3 /\ map (fun t => answers_to t (k_log y)) [0; 1; 2]%nat = ex_answers) by (vm_compute; auto).
    rewrite E0 in F. destruct F as (-> & F1 & F2). exists st0, (kexec (plain_body ex_zarr) (clients_init st0 ex_clients) ex_turns).
    split; [reflexivity|]. split; [apply kexec_reach, reach_refl|]. split; [|exact F2].
    unfold all_answered. rewrite F1. repeat constructor.
  - destruct (run_sharded_ops ex_sharded ex_pre (fun _ => None)) as [st0 r] eqn:E0.
    assert (F : let (st0, r) := run_sharded_ops ex_sharded ex_pre (fun _ => None) in
      r = Ok tt /\ let y := kexec (sharded_body ex_sharded) (clients_init st0 ex_clients) ex_turns in
      k_clients y = repeat (KIdle, []) 3 /\ map (fun t => answers_to t (k_log y)) [0; 1; 2]%nat = ex_answers) by (vm_compute; auto).
    rewrite E0 in F. destruct F as (-> & F1 & F2). exists st0, (kexec (sharded_body ex_sharded) (clients_init st0 ex_clients) ex_turns).
    split; [reflexivity|]. split; [apply kexec_reach, reach_refl|]. split; [|exact F2].
    unfold all_answered. rewrite F1. repeat constructor.
Qed.
Example C96_order_case : interleaving [[1; 2]; [3]] [1; 3; 2].
Proof.
  apply il_cons with (t := 0%nat) (rest := [2]); [reflexivity|]. apply il_cons with (t := 1%nat) (rest := []); [reflexivity|].
  apply il_cons with (t := 0%nat) (rest := []); [reflexivity|]. apply il_nil. repeat constructor.
Qed.

(** Refuted for clients that write different elements of the same chunk: both calls
    return normally and one of the writes is lost. *)
Theorem C96_same_chunk_refuted :
  exists y, reach (clients_step (plain_body ex_zarr)) (clients_init (fun _ => None)
      [[KOp (AWrite [0; 0] [1; 1] (FromScalar [9; 1]))]; [KOp (AWrite [1; 1] [1; 1] (FromScalar [8; 1]))]]) y /\
    all_answered y /\ map snd (k_log y) = [Ok []; Ok []] /\
    read_subarray ex_zarr (k_files y) (View 0 [2; 2] [2; 1]) [0; 0] (repeat [0; 0] 4) = Ok [[7; 0]; [7; 0]; [7; 0]; [8; 1]].
Proof.
  set (init := clients_init _ _). exists (kexec (plain_body ex_zarr) init (List.concat (repeat [0; 1]%nat 20))).
  split; [apply kexec_reach, reach_refl|].
  assert (F : k_clients (kexec (plain_body ex_zarr) init (List.concat (repeat [0; 1]%nat 20))) = repeat (KIdle, []) 2) by (vm_compute; reflexivity).
  split; [unfold all_answered; rewrite F; repeat constructor|]. split; vm_compute; reflexivity.
Qed.
Print Assumptions C96_same_chunk_refuted.

(** Refuted for a reader of a chunk that another client replaces: all elements were
    [9; 1] before and are [8; 1] afterwards, and the reader gets [0; 0] without an
    exception. *)
Theorem C96_reader_refuted :
  exists st0, run_array_ops ex_zarr [AWrite [0; 0] [2; 2] (FromScalar [9; 1])] (fun _ => None) = (st0, Ok tt) /\
  exists y, reach (clients_step (plain_body ex_zarr)) (clients_init st0
      [[KOp (AWrite [0; 0] [2; 2] (FromScalar [8; 1]))]; [KRead (View 0 [2; 2] [2; 1]) [0; 0] (repeat [1; 1] 4)]]) y /\
    all_answered y /\ map snd (k_log y) = [Ok [[0; 0]; [0; 0]; [0; 0]; [0; 0]]; Ok []].
Proof.
  set (calls := [[KOp (AWrite [0; 0] [2; 2] (FromScalar [8; 1]))]; [KRead (View 0 [2; 2] [2; 1]) [0; 0] (repeat [1; 1] 4)]]).
  set (sched := repeat 0%nat 4 ++ repeat 1%nat 30 ++ repeat 0%nat 30).
  destruct (run_array_ops ex_zarr [AWrite [0; 0] [2; 2] (FromScalar [9; 1])] (fun _ => None)) as [st0 r] eqn:E0.
  assert (F : let (st0, r) := run_array_ops ex_zarr [AWrite [0; 0] [2; 2] (FromScalar [9; 1])] (fun _ => None) in
    r = Ok tt /\ let y := kexec (plain_body ex_zarr) (clients_init st0 calls) sched in
    k_clients y = repeat (KIdle, []) 2 /\ map snd (k_log y) = [Ok [[0; 0]; [0; 0]; [0; 0]; [0; 0]]; Ok []]) by (vm_compute; auto).
  rewrite E0 in F. destruct F as (-> & F1 & F2). exists st0. split; [reflexivity|].
  exists (kexec (plain_body ex_zarr) (clients_init st0 calls) sched). split; [apply kexec_reach, reach_refl|].
  split; [unfold all_answered; rewrite F1; repeat constructor|exact F2].
Qed.
Print Assumptions C96_reader_refuted.

(** Refuted for clients with their own dataset objects that write different chunks of
    the same shard: the mutex of an object does not keep them apart. *)
Theorem C96_same_shard_refuted :
  exists y, reach (clients_step (sharded_body ex_sharded)) (clients_init (fun _ => None)
      [[KOp (AChunk [0; 0] [[1; 0]; [2; 0]; [3; 0]; [4; 0]])]; [KOp (AChunk [1; 0] [[5; 0]; [2; 0]; [3; 0]; [4; 0]])]]) y /\
    all_answered y /\ map snd (k_log y) = [Ok []; Ok []] /\
    sh_chunk_exists ex_sharded (k_files y) [0; 0] = Ok false /\ sh_chunk_exists ex_sharded (k_files y) [1; 0] = Ok true.
Proof.
  set (init := clients_init _ _). exists (kexec (sharded_body ex_sharded) init (List.concat (repeat [0; 1]%nat 20))).
  split; [apply kexec_reach, reach_refl|].
  assert (F : k_clients (kexec (sharded_body ex_sharded) init (List.concat (repeat [0; 1]%nat 20))) = repeat (KIdle, []) 2) by (vm_compute; reflexivity).
  split; [unfold all_answered; rewrite F; repeat constructor|]. split; [vm_compute; reflexivity|]. split; vm_compute; reflexivity.
Qed.
Print Assumptions C96_same_shard_refuted.
