(** Properties C53 and C54: functions over all chunks of a dataset. *)
From Verif Require Import M_Base M_Text M_Key M_Blocking M_View M_Bytes M_N5Header M_Format M_Mode M_Shard
  M_Dataset M_Sharded M_Access M_Pool M_ForEach M_Functions
  S_Array S_Grid S_Bytes S_Text S_Format S_Shard S_Dataset S_Access S_Sharded S_Functions
  P_Base P_Dataset P_Access P_Collect P_Functions P_Functions2 Properties_Access Properties_Sharded.
Import List ListNotations.
Local Open Scope list_scope.
Local Open Scope N_scope.

(** C53: after any history of chunk writes and removals, unique adds to the set exactly
    the values of the stored elements, for every number of threads and every schedule.
    Without NaN.  What is missing: the stored elements include the padding of zarr edge
    chunks, see [C53_padding_refuted]. *)
Theorem C53_unique_partial cc ops st : dataset_history cc ops st ->
  prod (chunk_counts (d_shape (cc_data cc)) (d_chunks (cc_data cc))) < W64 ->
  (forall c, comparable (d_type (cc_data cc)) (stored_values (last_result (cc_data cc) ops c None))) ->
  forall hw nThreads est u u1 r, comparable (d_type (cc_data cc)) u -> distinct (d_type (cc_data cc)) u ->
  unique_run cc hw nThreads est st u u1 r ->
  r = Ok tt /\ distinct (d_type (cc_data cc)) u1 /\
  forall x, member (d_type (cc_data cc)) x u1 <-> member (d_type (cc_data cc)) x u \/
    exists c, valid_chunk (d_shape (cc_data cc)) (d_chunks (cc_data cc)) c /\
      member (d_type (cc_data cc)) x (stored_values (last_result (cc_data cc) ops c None)).
Proof. intros H Sm _ hw nThreads est u u1 r _. exact (unique_history H Sm (hw := hw) (nThreads := nThreads) (est := est) (u := u) (u1 := u1) (r := r)). Qed.
Print Assumptions C53_unique_partial.

(** C53: uniqueWithCounts adds the number of stored elements of each value (as a
    size_t), and has entries for these values only. *)
Theorem C53_counts_partial cc ops st : dataset_history cc ops st ->
  prod (chunk_counts (d_shape (cc_data cc)) (d_chunks (cc_data cc))) < W64 ->
  (forall c, comparable (d_type (cc_data cc)) (stored_values (last_result (cc_data cc) ops c None))) ->
  forall cs, all_chunks (cc_data cc) cs ->
  forall hw nThreads est u u1 r, comparable (d_type (cc_data cc)) (map fst u) ->
  distinct (d_type (cc_data cc)) (map fst u) -> Forall (fun e => snd e < W64) u ->
  unique_counts_run cc hw nThreads est st u u1 r ->
  r = Ok tt /\ distinct (d_type (cc_data cc)) (map fst u1) /\
  (forall x, mapped (d_type (cc_data cc)) u1 x = (mapped (d_type (cc_data cc)) u x +
     sum_over (fun c => occurrences (d_type (cc_data cc)) x (stored_values (last_result (cc_data cc) ops c None))) cs) mod W64) /\
  (forall x, member (d_type (cc_data cc)) x (map fst u1) <-> member (d_type (cc_data cc)) x (map fst u) \/
    exists c, valid_chunk (d_shape (cc_data cc)) (d_chunks (cc_data cc)) c /\
      member (d_type (cc_data cc)) x (stored_values (last_result (cc_data cc) ops c None))).
Proof.
  intros H Sm _ cs Hc hw nThreads est u u1 r _.
  exact (counts_history H Sm Hc (hw := hw) (nThreads := nThreads) (est := est) (u := u) (u1 := u1) (r := r)).
Qed.
Print Assumptions C53_counts_partial.

(** C53: n5 datasets (chunks without varlen), and zarr datasets whose chunks divide the
    shape: the stored elements are the elements of the array whose chunk exists, so unique
    and uniqueWithCounts return what the property says. *)
Theorem C53_array cc ops st : dataset_history cc ops st -> Forall fixed_op ops -> no_padding (cc_data cc) ->
  prod (chunk_counts (d_shape (cc_data cc)) (d_chunks (cc_data cc))) < W64 ->
  (forall c, comparable (d_type (cc_data cc)) (stored_values (last_result (cc_data cc) ops c None))) ->
  (forall hw nThreads est u1 r, unique_run cc hw nThreads est st [] u1 r ->
     r = Ok tt /\ distinct (d_type (cc_data cc)) u1 /\
     forall x, member (d_type (cc_data cc)) x u1 <->
       exists i, in_shape (d_shape (cc_data cc)) i /\
         element_is (cc_data cc) (fun c => last_result (cc_data cc) ops c None) x i = true) /\
  (forall xs, all_elements (cc_data cc) xs ->
     forall hw nThreads est u1 r, unique_counts_run cc hw nThreads est st [] u1 r ->
     r = Ok tt /\ distinct (d_type (cc_data cc)) (map fst u1) /\
     forall x, mapped (d_type (cc_data cc)) u1 x =
       lenN (filter (element_is (cc_data cc) (fun c => last_result (cc_data cc) ops c None) x) xs) mod W64).
Proof.
  intros H Hf Np Sm Cm. split.
  - intros hw nThreads est u1 r Hr. destruct (@C53_unique_partial _ _ _ H Sm Cm hw nThreads est [] u1 r (Forall_nil _) Logic.I Hr) as (E & D & M).
    split; [exact E|]. split; [exact D|]. intros x. rewrite M, (array_members H Hf Np). split; [intros [(y & [] & _)|Q]; exact Q|now right].
  - intros xs Hx hw nThreads est u1 r Hr. destruct (history_facts H) as (ok & _).
    destruct (all_chunks_exist ok) as (cs & Hc).
    destruct (@C53_counts_partial _ _ _ H Sm Cm cs Hc hw nThreads est [] u1 r (Forall_nil _) Logic.I (Forall_nil _) Hr) as (E & D & M & _).
    split; [exact E|]. split; [exact D|]. intros x. rewrite M, (array_values H Hf Np Hc Hx). reflexivity.
Qed.
Print Assumptions C53_array.

(** C53: the calls return (there is a run, and all runs are described above). *)
Theorem C53_returns cc ops st : dataset_history cc ops st ->
  prod (chunk_counts (d_shape (cc_data cc)) (d_chunks (cc_data cc))) < W64 ->
  forall hw nThreads est, (forall u, exists u1, unique_run cc hw nThreads est st u u1 (Ok tt)) /\
    (forall u, exists u1, unique_counts_run cc hw nThreads est st u u1 (Ok tt)).
Proof.
  intros H Sm hw nThreads est. destruct (history_facts H) as (ok & R & _).
  split; intros u; exact (@collect_exists cc st _ [] u _ _ (fun c => option_map snd (last_result (cc_data cc) ops c None)) (do_dims ok) Sm R hw nThreads est).
Qed.
Print Assumptions C53_returns.

(** A history of the sharded dataset of C32_case. *)
Lemma ex_functions_history : exists st, dataset_history (sharded_calls ex_sharded) ex_shard_ops st.
Proof.
  destruct C27_sharded_case as (_ & Ho & _).
  destruct (@C27_sharded_chunk_map ex_sharded ex_shard_ops (fun _ => None) ex_sharded_ok eq_refl Ho (fun _ _ => eq_refl)) as (st & E & _).
  exists st. exact (sharded_history ex_sharded_ok eq_refl Ho (fun _ _ => eq_refl) E).
Qed.
Example C53_case : exists st u1,
  dataset_history (sharded_calls ex_sharded) ex_shard_ops st /\
  prod (chunk_counts (d_shape (sd_base ex_sharded)) (d_chunks (sd_base ex_sharded))) < W64 /\
  (forall c, comparable (d_type (sd_base ex_sharded)) (stored_values (last_result (sd_base ex_sharded) ex_shard_ops c None))) /\
  unique_counts_run (sharded_calls ex_sharded) 4 3 1 st [] u1 (Ok tt) /\
  mapped (d_type (sd_base ex_sharded)) u1 [5; 0] = 1 /\ mapped (d_type (sd_base ex_sharded)) u1 [1; 0] = 0.
Proof.
  destruct ex_functions_history as (st & H). exists st.
  assert (Sm : prod (chunk_counts (d_shape (sd_base ex_sharded)) (d_chunks (sd_base ex_sharded))) < W64) by (rewrite W64_val; reflexivity).
  assert (Cm : forall c, comparable (d_type (sd_base ex_sharded)) (stored_values (last_result (sd_base ex_sharded) ex_shard_ops c None))).
  { intros c. apply Forall_forall. intros x _. unfold elem_eq. cbn [d_type ex_sharded sd_base t_float]. apply N.eqb_refl. }
  destruct (C53_returns H Sm 4 3 1) as [_ R]. destruct (R []) as (u1 & Hr). exists u1.
  assert (Hc : all_chunks (sd_base ex_sharded) [[0;0];[0;1];[1;0];[1;1];[2;0];[2;1]]).
  { split; [repeat constructor; cbn; intuition discriminate|]. intros c. split.
    - intros Hc. repeat (destruct Hc as [<-|Hc]; [cbn; lia|]). destruct Hc.
    - intros V. destruct c as [|i [|j [|? ?]]]; cbn in V; try tauto. destruct V as (V1 & V2 & _).
      assert (Hi : i = 0 \/ i = 1 \/ i = 2) by lia. assert (Hj : j = 0 \/ j = 1) by lia.
      destruct Hi as [->|[->| ->]], Hj as [->| ->]; cbn; tauto. }
  destruct (@C53_counts_partial _ _ _ H Sm Cm _ Hc 4 3%Z 1%Z [] u1 (Ok tt) (Forall_nil _) Logic.I (Forall_nil _) Hr) as (_ & _ & M & _).
  repeat split; auto; [exact (M [5; 0])|exact (M [1; 0])].
Qed.

(** C53 does not hold for zarr edge chunks: the array has three elements, all are 1;
    unique also returns 0, and uniqueWithCounts counts four elements. *)
Definition ex_edge : dataset :=
  Dataset [3] [2] (KeyConfig true "." 2 "default") (ElemType 1 false) [0] raw_codec Mode_a.
Lemma ex_edge_ok : dataset_ok ex_edge.
Proof.
  split.
  - split; [discriminate|]. cbn. rewrite W64_val. lia.
  - reflexivity.
  - rewrite W64_val. reflexivity.
  - split; [reflexivity|]. repeat constructor.
  - left. reflexivity.
  - reflexivity.
  - right. reflexivity.
  - discriminate.
Qed.
Definition ex_edge_op : array_op := AWrite [0] [3] (FromScalar [1]).
Definition ex_edge_st : store := fst (run_array_ops ex_edge [ex_edge_op] (fun _ => None)).
Definition ex_edge_data (c : shape) : option (bool * list cell) :=
  match c with [0] => Some (false, [[1]; [1]]) | [1] => Some (false, [[1]; [0]]) | _ => None end.
Lemma ex_edge_chunks c : valid_chunk [3] [2] c <-> c = [0] \/ c = [1].
Proof.
  destruct c as [|i [|? ?]]; cbn; split; try tauto; try (intros [|]; discriminate).
  - intros [H _]. assert (Hi : i = 0 \/ i = 1) by lia. destruct Hi as [-> | ->]; auto.
  - intros [[= ->]|[= ->]]; split; auto; reflexivity.
Qed.
Lemma ex_edge_holds c : valid_chunk [3] [2] c -> chunk_holds ex_edge ex_edge_st c (ex_edge_data c).
Proof.
  intros V. apply ex_edge_chunks in V. destruct V as [-> | ->]; cbn [ex_edge_data chunk_holds]; eexists; (split; [vm_compute; reflexivity|]);
    (split; [vm_compute; reflexivity|]); (split; [split; [reflexivity|repeat constructor]|]); (split; [reflexivity|discriminate]).
Qed.
Theorem C53_padding_refuted :
  snd (run_array_ops ex_edge [ex_edge_op] (fun _ => None)) = Ok tt /\
  read_subarray ex_edge ex_edge_st (make_view [3]) [0] (repeat [9] 3) = Ok [[1]; [1]; [1]] /\
  forall hw nThreads est,
    (exists u1 r, unique_run (plain_calls ex_edge) hw nThreads est ex_edge_st [] u1 r) /\
    (forall u1 r, unique_run (plain_calls ex_edge) hw nThreads est ex_edge_st [] u1 r -> member (d_type ex_edge) [0] u1) /\
    (exists u1 r, unique_counts_run (plain_calls ex_edge) hw nThreads est ex_edge_st [] u1 r) /\
    (forall u1 r, unique_counts_run (plain_calls ex_edge) hw nThreads est ex_edge_st [] u1 r ->
       mapped (d_type ex_edge) u1 [0] = 1 /\ mapped (d_type ex_edge) u1 [1] = 3).
Proof.
  split; [vm_compute; reflexivity|]. split; [vm_compute; reflexivity|]. intros hw nThreads est.
  assert (Sm : prod (chunk_counts (d_shape ex_edge) (d_chunks ex_edge)) < W64) by (rewrite W64_val; reflexivity).
  assert (R : forall c, valid_chunk (d_shape ex_edge) (d_chunks ex_edge) c -> readable (plain_calls ex_edge) ex_edge_st c (option_map snd (ex_edge_data c))).
  { intros c V. apply (plain_readable ex_edge_ok V). now apply ex_edge_holds. }
  pose proof (do_dims ex_edge_ok) as D. split; [|split; [|split]].
  - destruct (@collect_exists (plain_calls ex_edge) ex_edge_st _ [] [] (set_insert_all (d_type ex_edge)) (set_insert_all (d_type ex_edge)) _ D Sm R hw nThreads est) as (u1 & H).
    exists u1, (Ok tt). exact H.
  - intros u1 r H. destruct (@unique_general (plain_calls ex_edge) ex_edge_st ex_edge_data D Sm R hw nThreads est [] u1 r Logic.I H) as (_ & _ & M).
    apply M. right. exists [1]. split; [cbn; lia|]. exists [0]. split; [cbn; auto|reflexivity].
  - destruct (@collect_exists (plain_calls ex_edge) ex_edge_st _ [] [] (map_count_all (d_type ex_edge)) (map_merge (d_type ex_edge)) _ D Sm R hw nThreads est) as (u1 & H).
    exists u1, (Ok tt). exact H.
  - intros u1 r H. assert (Nd : NoDup [[0]; [1]]) by (repeat constructor; cbn; intuition discriminate).
    assert (Hc : forall c, In c [[0]; [1]] <-> valid_chunk (d_shape ex_edge) (d_chunks ex_edge) c).
    { intros c. change (d_shape ex_edge) with [3]. change (d_chunks ex_edge) with [2]. rewrite ex_edge_chunks. cbn. intuition. }
    destruct (@counts_general (plain_calls ex_edge) ex_edge_st ex_edge_data D Sm R hw nThreads est [] u1 r [[0]; [1]] Nd Hc Logic.I (Forall_nil _) H) as (_ & _ & M & _).
    split; [exact (M [0])|exact (M [1])].
Qed.
Print Assumptions C53_padding_refuted.

(** C54: after any history of chunk writes and removals, removeTrivialChunks removes the
    chunks whose stored elements are all equal (to the value, if one is given) and leaves
    every other file as it is; for every number of threads and every schedule.  Datasets
    that are not sharded, without NaN. *)
Theorem C54_removed_partial d ops st0 st : dataset_ok d -> can_write (d_mode d) = true -> Forall (op_ok d) ops ->
  (forall c, valid_chunk (d_shape d) (d_chunks d) c -> st0 (chunk_key (d_key d) c) = None) ->
  run_ops d ops st0 = (st, Ok tt) -> prod (chunk_counts (d_shape d) (d_chunks d)) < W64 ->
  (forall c, valid_chunk (d_shape d) (d_chunks d) c -> comparable (d_type d) (stored_values (last_result d ops c None))) ->
  forall hw nThreads est value st1 r, remove_trivial d hw nThreads est value st st1 r ->
  r = Ok tt /\
  (forall k, (forall c, valid_chunk (d_shape d) (d_chunks d) c -> k <> chunk_key (d_key d) c) -> st1 k = st k) /\
  forall c, valid_chunk (d_shape d) (d_chunks d) c ->
    (single_value (d_type d) value (stored_values (last_result d ops c None)) ->
       st1 (chunk_key (d_key d) c) = None /\ chunk_exists d st1 c = Ok false) /\
    (~ single_value (d_type d) value (stored_values (last_result d ops c None)) ->
       st1 (chunk_key (d_key d) c) = st (chunk_key (d_key d) c)).
Proof. exact (@trivial_history d ops st0 st). Qed.
Print Assumptions C54_removed_partial.

(** C54: after any history, if only chunks of the fill value are removed, the array
    reads as before. *)
Theorem C54_array_partial d ops st0 st : dataset_ok d -> can_write (d_mode d) = true -> Forall (array_op_ok d) ops ->
  (forall c, valid_chunk (d_shape d) (d_chunks d) c -> st0 (chunk_key (d_key d) c) = None) ->
  run_array_ops d ops st0 = (st, Ok tt) -> prod (chunk_counts (d_shape d) (d_chunks d)) < W64 ->
  (forall c out vl data, valid_chunk (d_shape d) (d_chunks d) c -> buffer_of (t_width (d_type d)) (prod (stored_shape d c)) out ->
     read_chunk d st c out = Ok (vl, data) -> comparable (d_type d) data) ->
  forall hw nThreads est v st1 r, elem_eq (d_type d) v (d_fill d) = true -> remove_trivial d hw nThreads est (Some v) st st1 r ->
  r = Ok tt /\
  forall ov off out, region_ok d off (v_shape ov) -> out_view_ok ov (lenN out) ->
    exists out', read_subarray d st1 ov off out = Ok out' /\
      forall i, in_shape (v_shape ov) i -> exists x,
        getN out' (v_off ov + lin (v_strides ov) i) = Ok x /\
        same_value d x (apply_ops d ops (fun _ => d_fill d) (vadd off i)).
Proof. exact (@trivial_array d ops st0 st). Qed.
Print Assumptions C54_array_partial.

(** C54: a read-only handle removes nothing; removeDataset removes everything. *)
Theorem C54_readonly d hw nThreads est value st st1 r : can_write (d_mode d) = false ->
  remove_trivial d hw nThreads est value st st1 r \/ remove_dataset d hw nThreads est st st1 r ->
  st1 = st /\ r = Throw EInvalidArgument.
Proof. intros H [R|R]; [exact (trivial_readonly H R)|exact (removal_readonly H R)]. Qed.
Print Assumptions C54_readonly.
Theorem C54_remove_dataset d : dataset_ok d -> can_write (d_mode d) = true ->
  prod (chunk_counts (d_shape d) (d_chunks d)) < W64 -> forall hw nThreads est st,
  (forall st1 r, remove_dataset d hw nThreads est st st1 r -> r = Ok tt /\ forall k, st1 k = None) /\
  exists st1, remove_dataset d hw nThreads est st st1 (Ok tt).
Proof.
  intros ok wr Sm hw nThreads est st. split; [intros st1 r; exact (@removal_general d ok Sm wr hw nThreads est st st1 r)|].
  exact (removal_exists ok Sm wr hw nThreads est st).
Qed.
Print Assumptions C54_remove_dataset.

(** C54: the call returns. *)
Theorem C54_returns d ops st0 st : dataset_ok d -> can_write (d_mode d) = true -> Forall (op_ok d) ops ->
  (forall c, valid_chunk (d_shape d) (d_chunks d) c -> st0 (chunk_key (d_key d) c) = None) ->
  run_ops d ops st0 = (st, Ok tt) -> prod (chunk_counts (d_shape d) (d_chunks d)) < W64 ->
  forall hw nThreads est value, exists st1 r, remove_trivial d hw nThreads est value st st1 r.
Proof.
  intros ok wr Ho He Hr Sm hw nThreads est value.
  exact (@trivial_exists d ok Sm wr hw nThreads est value st _ (history_holds ok wr Ho He Hr)).
Qed.
Print Assumptions C54_returns.

(** Chunks [1; 1] (removed) and [1; 0] (kept). *)
Definition ex_trivial_ops : list chunk_op := [OpWrite [0] [[1]; [1]]; OpWrite [1] [[1]; [0]]].
Definition ex_trivial_st : store := fst (run_ops ex_edge ex_trivial_ops (fun _ => None)).
Lemma ex_trivial_ok : Forall (op_ok ex_edge) ex_trivial_ops.
Proof. repeat (apply Forall_cons; [split; [cbn; lia|split; [reflexivity|repeat constructor]]|]). constructor. Qed.
Lemma ex_trivial_run : run_ops ex_edge ex_trivial_ops (fun _ => None) = (ex_trivial_st, Ok tt).
Proof. reflexivity. Qed.
Example C54_case : exists st1, remove_trivial ex_edge 4 3 1 (Some [1]) ex_trivial_st st1 (Ok tt) /\
  ex_trivial_st "0"%string <> None /\ st1 "0"%string = None /\ st1 "1"%string = Some [1; 0].
Proof.
  assert (Sm : prod (chunk_counts (d_shape ex_edge) (d_chunks ex_edge)) < W64) by (rewrite W64_val; reflexivity).
  destruct (@C54_returns ex_edge _ _ _ ex_edge_ok eq_refl ex_trivial_ok (fun _ _ => eq_refl) ex_trivial_run Sm 4 3%Z 1%Z (Some [1])) as (st1 & r & R).
  exists st1. destruct (@C54_removed_partial ex_edge _ _ _ ex_edge_ok eq_refl ex_trivial_ok (fun _ _ => eq_refl) ex_trivial_run Sm) with (2 := R) as (-> & _ & H).
  { intros c _. apply Forall_forall. intros x _. unfold elem_eq. cbn [d_type ex_edge t_float]. apply N.eqb_refl. }
  split; [exact R|]. split; [vm_compute; discriminate|].
  destruct (H [0]) as [H1 _]; [cbn; lia|]. destruct (H [1]) as [_ H2]; [cbn; lia|]. split.
  - apply H1. split; [discriminate|]. cbn. split; [intros x y [<-|[<-|[]]] [<-|[<-|[]]]; reflexivity|intros x [<-|[<-|[]]]; reflexivity].
  - change "1"%string with (chunk_key (d_key ex_edge) [1]). rewrite H2; [reflexivity|]. intros (_ & Q & _). cbn in Q.
    specialize (Q [1] [0] (or_introl eq_refl) (or_intror (or_introl eq_refl))). discriminate.
Qed.
(** The same dataset for the other theorems: C53_padding_refuted uses its array history. *)
Example C54_array_case : exists st1, remove_trivial ex_edge 4 3 1 (Some [0]) ex_edge_st st1 (Ok tt) /\
  array_op_ok ex_edge ex_edge_op /\ run_array_ops ex_edge [ex_edge_op] (fun _ => None) = (ex_edge_st, Ok tt) /\
  (forall c out vl data, valid_chunk (d_shape ex_edge) (d_chunks ex_edge) c ->
     buffer_of (t_width (d_type ex_edge)) (prod (stored_shape ex_edge c)) out ->
     read_chunk ex_edge ex_edge_st c out = Ok (vl, data) -> comparable (d_type ex_edge) data).
Proof.
  assert (Sm : prod (chunk_counts (d_shape ex_edge) (d_chunks ex_edge)) < W64) by (rewrite W64_val; reflexivity).
  destruct (@trivial_exists ex_edge ex_edge_ok Sm eq_refl 4 3%Z 1%Z (Some [0]) ex_edge_st ex_edge_data ex_edge_holds) as (st1 & r & R).
  destruct (@trivial_general ex_edge ex_edge_ok Sm eq_refl 4 3%Z 1%Z (Some [0]) ex_edge_st st1 r ex_edge_data ex_edge_holds R) as (-> & _).
  exists st1. split; [exact R|]. split; [split; [split; cbn; lia|split; [reflexivity|repeat constructor]]|]. split; [reflexivity|].
  intros c out vl data _ _ _. apply Forall_forall. intros x _. unfold elem_eq. cbn [d_type ex_edge t_float]. apply N.eqb_refl.
Qed.

(** C54 does not hold with NaN: the chunk has the elements 1.0 and NaN, and
    removeTrivialChunks of the value 1.0 removes it. *)
Definition ex_nan : dataset :=
  Dataset [2] [2] (KeyConfig true "." 2 "default") (ElemType 4 true) [0; 0; 0; 0] raw_codec Mode_a.
Lemma ex_nan_ok : dataset_ok ex_nan.
Proof.
  split.
  - split; [discriminate|]. cbn. rewrite W64_val. lia.
  - reflexivity.
  - rewrite W64_val. reflexivity.
  - split; [reflexivity|]. repeat constructor.
  - left. reflexivity.
  - reflexivity.
  - right. reflexivity.
  - discriminate.
Qed.
Definition one_f : cell := [0; 0; 128; 63].
Definition nan_f : cell := [0; 0; 192; 127].
Definition ex_nan_ops : list chunk_op := [OpWrite [0] [one_f; nan_f]].
Theorem C54_nan_refuted :
  let st := fst (run_ops ex_nan ex_nan_ops (fun _ => None)) in
  run_ops ex_nan ex_nan_ops (fun _ => None) = (st, Ok tt) /\ elem_eq (d_type ex_nan) nan_f one_f = false /\
  chunk_exists ex_nan st [0] = Ok true /\
  forall hw nThreads est, (exists st1 r, remove_trivial ex_nan hw nThreads est (Some one_f) st st1 r) /\
    forall st1 r, remove_trivial ex_nan hw nThreads est (Some one_f) st st1 r ->
      r = Ok tt /\ chunk_exists ex_nan st1 [0] = Ok false.
Proof.
  cbn zeta. split; [reflexivity|]. split; [reflexivity|]. split; [reflexivity|]. intros hw nThreads est.
  assert (Ho : Forall (op_ok ex_nan) ex_nan_ops) by (constructor; [split; [cbn; lia|split; [reflexivity|repeat constructor]]|constructor]).
  assert (Sm : prod (chunk_counts (d_shape ex_nan) (d_chunks ex_nan)) < W64) by (rewrite W64_val; reflexivity).
  pose proof (@history_holds ex_nan ex_nan_ok ex_nan_ops (fun _ => None) _ eq_refl Ho (fun _ _ => eq_refl) eq_refl) as Hh. split.
  - exact (@trivial_exists ex_nan ex_nan_ok Sm eq_refl hw nThreads est (Some one_f) _ _ Hh).
  - intros st1 r R. destruct (@trivial_general ex_nan ex_nan_ok Sm eq_refl hw nThreads est (Some one_f) _ st1 r _ Hh R) as (E & _ & H).
    split; [exact E|]. specialize (H [0] ltac:(cbn; lia)).
    assert (V : valid_chunk (d_shape ex_nan) (d_chunks ex_nan) [0]) by (cbn; lia).
    unfold chunk_exists. rewrite (handle_ok ex_nan_ok V). cbn [bind ch_key]. rewrite H. reflexivity.
Qed.
Print Assumptions C54_nan_refuted.
