(** Property C36: sub-array access on several threads. *)
From Verif Require Import M_Base M_Text M_Key M_Blocking M_View M_Bytes M_N5Header M_Format
  M_Mode M_Shard M_Dataset M_Sharded M_Access M_Pool M_Parallel
  S_Array S_Grid S_Bytes S_Text S_Format S_Shard S_Dataset S_Sharded S_Access S_File S_Pool S_Parallel
  P_Base P_Blocking P_Roi P_View P_Bytes P_Key P_Format P_Shard P_Dataset P_Access P_Read P_History P_Sharded P_File P_Pool
  P_Foreach P_Parallel P_ParWrite P_ParSharded P_ParHistory
  Properties_Access Properties_Sharded Properties_File.
Import List ListNotations.
Local Open Scope list_scope.
Local Open Scope N_scope.

(** C36: a read with any number of threads and under any schedule gives the result
    and the output array of the single threaded read, and touches no other
    addresses; the files may be anything that has not been cut short. *)
Theorem C36_read d : dataset_ok d -> forall threads est ov off st l o o' r,
  region_ok d off (v_shape ov) -> out_view_ok ov (lenN l) ->
  (forall c file, overlaps (d_shape d) (d_chunks d) off (v_shape ov) c ->
     st (chunk_key (d_key d) c) = Some file -> complete_file d c file) ->
  lists o l -> read_run d threads est st ov off (lenN l) o o' r ->
  match read_subarray d st ov off l with
  | Ok l' => r = Ok tt /\ lists o' l'
  | Throw e => r = Throw e
  | UB => False
  end /\
  (forall a, (forall i, in_shape (v_shape ov) i -> a <> v_off ov + lin (v_strides ov) i) -> o' a = o a).
Proof. intros H threads est ov off st l o o' r. exact (@par_read d H threads est ov off st l o o' r). Qed.
Print Assumptions C36_read.

(** C36: the same for writes of arrays and scalars: result and files of the single
    threaded write.  If a write fails, only files of the covered chunks may have
    changed. *)
Theorem C36_write d : dataset_ok d -> forall threads est src off n st st1 r,
  region_ok d off n -> source_ok (t_width (d_type d)) n src ->
  (forall c file, overlaps (d_shape d) (d_chunks d) off n c ->
     st (chunk_key (d_key d) c) = Some file -> overwritable d c file) ->
  write_run d threads est src off n st st1 r ->
  r = snd (write_request d src off n st) /\
  (r = Ok tt -> forall k, st1 k = fst (write_request d src off n st) k) /\
  (forall k, (forall c, overlaps (d_shape d) (d_chunks d) off n c -> k <> chunk_key (d_key d) c) -> st1 k = st k) /\
  r <> UB.
Proof. intros H threads est src off n st st1 r. exact (@par_write d H threads est src off n st st1 r). Qed.
Print Assumptions C36_write.

(** C36, sharded datasets. *)
Theorem C36_sharded_read sd : sharded_ok sd -> forall threads est ov off st l o o' r,
  region_ok (sd_base sd) off (v_shape ov) -> out_view_ok ov (lenN l) ->
  (forall c, overlaps (d_shape (sd_base sd)) (d_chunks (sd_base sd)) off (v_shape ov) c -> complete_slot sd st c) ->
  lists o l -> sh_read_run sd threads est st ov off (lenN l) o o' r ->
  match sh_read_subarray sd st ov off l with
  | Ok l' => r = Ok tt /\ lists o' l'
  | Throw e => r = Throw e
  | UB => False
  end /\
  (forall a, (forall i, in_shape (v_shape ov) i -> a <> v_off ov + lin (v_strides ov) i) -> o' a = o a).
Proof. intros H threads est ov off st l o o' r. exact (@sh_par_read sd H threads est ov off st l o o' r). Qed.
Print Assumptions C36_sharded_read.

Theorem C36_sharded_write sd : sharded_ok sd -> forall threads est src off n st st1 r,
  region_ok (sd_base sd) off n -> source_ok (t_width (d_type (sd_base sd))) n src ->
  (forall c, overlaps (d_shape (sd_base sd)) (d_chunks (sd_base sd)) off n c -> complete_slot sd st c) ->
  sh_write_run sd threads est src off n st st1 r ->
  r = snd (sh_write_request sd src off n st) /\
  (r = Ok tt -> forall k, st1 k = fst (sh_write_request sd src off n st) k) /\
  (forall k, (forall c, overlaps (d_shape (sd_base sd)) (d_chunks (sd_base sd)) off n c -> k <> shard_key sd c) ->
     st1 k = st k) /\
  r <> UB.
Proof. intros H threads est src off n st st1 r. exact (@sh_par_write sd H threads est src off n st st1 r). Qed.
Print Assumptions C36_sharded_write.

(** C36: histories.  A dataset that is written by any sequence of operations, each
    with its own number of threads and its own schedule, behaves like an array:
    every operation succeeds, and every later read, with any number of threads,
    returns the array's elements. *)
Theorem C36_history d : dataset_ok d -> can_write (d_mode d) = true -> forall ops st st' rs,
  Forall (fun o => array_op_ok d (snd o)) ops ->
  (forall c, valid_chunk (d_shape d) (d_chunks d) c -> st (chunk_key (d_key d) c) = None) ->
  history (par_op d) ops st st' rs ->
  Forall (eq (Ok tt)) rs /\
  forall threads est ov off l o o' r, region_ok d off (v_shape ov) -> out_view_ok ov (lenN l) -> lists o l ->
    read_run d threads est st' ov off (lenN l) o o' r ->
    r = Ok tt /\
    (forall i, in_shape (v_shape ov) i ->
       same_value d (o' (v_off ov + lin (v_strides ov) i)) (apply_ops d (map snd ops) (fun _ => d_fill d) (vadd off i)) /\
       (t_float (d_type d) = false ->
          o' (v_off ov + lin (v_strides ov) i) = apply_ops d (map snd ops) (fun _ => d_fill d) (vadd off i))) /\
    (forall a, (forall i, in_shape (v_shape ov) i -> a <> v_off ov + lin (v_strides ov) i) -> o' a = o a).
Proof. intros H Hw ops st st' rs. exact (@plain_history d H Hw ops st st' rs). Qed.
Print Assumptions C36_history.

Theorem C36_sharded_history sd : sharded_ok sd -> can_write (d_mode (sd_base sd)) = true -> forall ops st st' rs,
  Forall (fun o => array_op_ok (sd_base sd) (snd o)) ops ->
  (forall c, valid_chunk (d_shape (sd_base sd)) (d_chunks (sd_base sd)) c -> st (shard_key sd c) = None) ->
  history (sh_par_op sd) ops st st' rs ->
  Forall (eq (Ok tt)) rs /\
  forall threads est ov off l o o' r, region_ok (sd_base sd) off (v_shape ov) -> out_view_ok ov (lenN l) -> lists o l ->
    sh_read_run sd threads est st' ov off (lenN l) o o' r ->
    r = Ok tt /\
    (forall i, in_shape (v_shape ov) i ->
       same_value (sd_base sd) (o' (v_off ov + lin (v_strides ov) i))
         (apply_ops (sd_base sd) (map snd ops) (fun _ => d_fill (sd_base sd)) (vadd off i)) /\
       (t_float (d_type (sd_base sd)) = false ->
          o' (v_off ov + lin (v_strides ov) i) =
          apply_ops (sd_base sd) (map snd ops) (fun _ => d_fill (sd_base sd)) (vadd off i))) /\
    (forall a, (forall i, in_shape (v_shape ov) i -> a <> v_off ov + lin (v_strides ov) i) -> o' a = o a).
Proof. intros H Hw ops st st' rs. exact (@sharded_history sd ops st st' rs H Hw). Qed.
Print Assumptions C36_sharded_history.

(** C36: requests outside of the array are rejected before any thread starts. *)
Theorem C36_rejected d threads est off n :
  (forall a b, In (a, b) (combine off n) -> a + b < W64) -> ~ valid_region (d_shape d) off n ->
  (forall st ov size o o' r, v_shape ov = n -> read_run d threads est st ov off size o o' r ->
     r = Throw ERuntime /\ o' = o) /\
  (forall src st st1 r, write_run d threads est src off n st st1 r -> r = Throw ERuntime /\ st1 = st).
Proof.
  intros Hs Hn. destruct (check_request_exact (d_shape d) Hs) as [_ [_ E]]. specialize (E Hn).
  assert (B : begin_request d off n = Throw ERuntime) by (unfold begin_request; now rewrite E). split.
  - intros st ov size o o' r <- H. inversion H as [reqs m1 r' B'|e B']; subst; rewrite B in B'; [discriminate|].
    injection B' as <-. auto.
  - intros src st st1 r H. inversion H as [reqs m1 r' B'|e B']; subst; rewrite B in B'; [discriminate|].
    injection B' as <-. auto.
Qed.
Print Assumptions C36_rejected.

(** Runs exist for every number of threads. *)
Theorem C36_runs_exist d : dataset_ok d -> forall threads est off n,
  region_ok d off n ->
  (forall ov st l o, v_shape ov = n -> out_view_ok ov (lenN l) -> lists o l ->
     (forall c file, overlaps (d_shape d) (d_chunks d) off n c ->
        st (chunk_key (d_key d) c) = Some file -> complete_file d c file) ->
     exists o' r, read_run d threads est st ov off (lenN l) o o' r) /\
  (forall src st, source_ok (t_width (d_type d)) n src ->
     (forall c file, overlaps (d_shape d) (d_chunks d) off n c ->
        st (chunk_key (d_key d) c) = Some file -> overwritable d c file) ->
     exists st1 r, write_run d threads est src off n st st1 r).
Proof.
  intros H threads est off n Hr. split.
  - intros ov st l o <- Hov HL HF. exact (@read_exists d H threads est ov off st l o Hr Hov HF HL).
  - intros src st Hs HF. exact (@write_exists d H threads est src off n st Hr Hs HF).
Qed.
Print Assumptions C36_runs_exist.
Theorem C36_sharded_runs_exist sd : sharded_ok sd -> forall threads est off n,
  region_ok (sd_base sd) off n ->
  (forall ov st l o, v_shape ov = n -> out_view_ok ov (lenN l) -> lists o l ->
     (forall c, overlaps (d_shape (sd_base sd)) (d_chunks (sd_base sd)) off n c -> complete_slot sd st c) ->
     exists o' r, sh_read_run sd threads est st ov off (lenN l) o o' r) /\
  (forall src st, source_ok (t_width (d_type (sd_base sd))) n src ->
     (forall c, overlaps (d_shape (sd_base sd)) (d_chunks (sd_base sd)) off n c -> complete_slot sd st c) ->
     exists st1 r, sh_write_run sd threads est src off n st st1 r).
Proof.
  intros H threads est off n Hr. split.
  - intros ov st l o <- Hov HL HF. exact (@sh_read_exists sd H threads est ov off st l o Hr Hov HF HL).
  - intros src st Hs HF. exact (@sh_write_exists sd H threads est src off n st Hr Hs HF).
Qed.
Print Assumptions C36_sharded_runs_exist.

Theorem C36_histories_exist d : dataset_ok d -> can_write (d_mode d) = true -> forall ops st,
  Forall (fun o => array_op_ok d (snd o)) ops ->
  (forall c, valid_chunk (d_shape d) (d_chunks d) c -> st (chunk_key (d_key d) c) = None) ->
  exists st' rs, history (par_op d) ops st st' rs.
Proof. intros H Hw ops st. exact (@plain_history_exists d H Hw ops st). Qed.
Print Assumptions C36_histories_exist.
Theorem C36_histories_exist_sharded sd : sharded_ok sd -> can_write (d_mode (sd_base sd)) = true -> forall ops st,
  Forall (fun o => array_op_ok (sd_base sd) (snd o)) ops ->
  (forall c, valid_chunk (d_shape (sd_base sd)) (d_chunks (sd_base sd)) c -> st (shard_key sd c) = None) ->
  exists st' rs, history (sh_par_op sd) ops st st' rs.
Proof. intros H Hw ops st. exact (@sharded_history_exists sd ops st H Hw). Qed.
Print Assumptions C36_histories_exist_sharded.

(** Four threads read four elements of the files of C35_case. *)
Lemma view4_ok : out_view_ok (make_view [4]) (lenN (repeat [0; 0] 4)).
Proof.
  split; [reflexivity|]. change (make_view [4]) with (View 0 [4] [1]). cbn [v_off v_shape v_strides].
  change (lenN (repeat [0; 0] 4)) with 4. split.
  - intros i Hi. inversion Hi as [|x0 ? ? ? H1 Hi']; subst. inversion Hi'; subst. cbn. lia.
  - intros i j Hi Hj. inversion Hi as [|x0 ? ? ? H1 Hi']; subst. inversion Hi'; subst.
    inversion Hj as [|x1 ? ? ? H2 Hj']; subst. inversion Hj'; subst. cbn. intros H. f_equal. lia.
Qed.
Example C36_case : exists o',
  read_run ex_file 4 1 ex_files (make_view [4]) [1] 4 (fun _ => [0; 0]) o' (Ok tt) /\
  map o' [0; 1; 2; 3; 4] = [[2; 2]; [7; 0]; [7; 0]; [5; 0]; [0; 0]].
Proof.
  assert (HL : lists (fun _ => [0; 0]) (repeat [0; 0] 4)).
  { intros a Ha. change (lenN (repeat [0; 0] 4)) with 4 in Ha.
    assert (K : a = 0 \/ a = 1 \/ a = 2 \/ a = 3) by lia. destruct K as [-> |[-> |[-> | ->]]]; reflexivity. }
  assert (Hr : region_ok ex_file [1] [4]) by (split; cbn; lia).
  destruct (C36_runs_exist ex_file_ok 4 1 Hr) as [X _].
  destruct (X (make_view [4]) ex_files _ _ eq_refl view4_ok HL ex_files_complete) as (o' & r & Hrun). exists o'.
  destruct (@C36_read _ ex_file_ok 4 1 (make_view [4]) [1] _ _ _ _ _ Hr view4_ok ex_files_complete HL Hrun) as [R1 R2].
  replace (read_subarray ex_file ex_files (make_view [4]) [1] (repeat [0; 0] 4))
    with (Ok [[2; 2]; [7; 0]; [7; 0]; [5; 0]]) in R1 by (vm_compute; reflexivity).
  destruct R1 as [-> R1]. split; [exact Hrun|].
  assert (A : forall a v, a < 4 -> getN [[2; 2]; [7; 0]; [7; 0]; [5; 0]] a = Ok v -> o' a = v).
  { intros a v Ha E. specialize (R1 a Ha). congruence. }
  cbn [map]. rewrite (A 0 _ ltac:(lia) eq_refl), (A 1 _ ltac:(lia) eq_refl), (A 2 _ ltac:(lia) eq_refl), (A 3 _ ltac:(lia) eq_refl).
  rewrite R2; [reflexivity|]. intros i Hi. destruct view4_ok as (_ & B & _). specialize (B i Hi).
  change (lenN (repeat [0; 0] 4)) with 4 in B. lia.
Qed.

(** The operations of C30_case and C32_case with 1, 4, 2 and 8 threads. *)
Definition ex_par_ops : list (N * Z * array_op) := combine [(1, 1%Z); (4, 1%Z); (2, 3%Z); (8, 1%Z)] ex_ops.
Example C36_history_case :
  map snd ex_par_ops = ex_ops /\ Forall (fun o => array_op_ok (sd_base ex_sharded) (snd o)) ex_par_ops /\
  exists st' rs, history (sh_par_op ex_sharded) ex_par_ops (fun _ => None) st' rs.
Proof.
  split; [reflexivity|].
  assert (HO : Forall (fun o => array_op_ok (sd_base ex_sharded) (snd o)) ex_par_ops).
  { apply (Forall_map snd (array_op_ok (sd_base ex_sharded))). exact ex_sharded_ops. }
  split; [exact HO|].
  apply C36_histories_exist_sharded; [exact ex_sharded_ok|reflexivity|exact HO|reflexivity].
Qed.
