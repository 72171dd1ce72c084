(** Proofs about chunk access of python datasets. *)
From Coq Require Import ZArith Lia ZifyBool ZifyNat ZifyN.
From Verif Require Import M_Base P_Base M_Key M_Blocking M_View M_Format M_Mode M_Dataset M_Sharded M_Access M_Python
  S_Array S_Grid S_Bytes S_Format S_Dataset S_Access S_Sharded S_Python
  P_Blocking P_View P_Dataset P_Access P_Read P_History P_Sharded P_ShardedApi P_Functions P_Python P_Python2 P_Python3.
Import ListNotations.
Local Open Scope list_scope.
Local Open Scope N_scope.

Definition chunk_ops (p : py_dataset) (ops : list chunk_op) : action unit :=
  match p with PyPlain d => run_ops d ops | PyShards sd => run_shard_ops sd ops end.
Definition chunk_op1 (p : py_dataset) (o : chunk_op) : action unit :=
  match p with PyPlain d => run_op d o | PyShards sd => run_shard_op sd o end.

Lemma chunk_ops_cons p o ops st st' : chunk_ops p (o :: ops) st = (st', Ok tt) ->
  exists st1, chunk_op1 p o st = (st1, Ok tt) /\ chunk_ops p ops st1 = (st', Ok tt).
Proof.
  destruct p as [d|sd]; cbn [chunk_ops chunk_op1]; unfold run_ops, run_shard_ops; cbn [foldS]; unfold sbind.
  - destruct (run_op d o st) as [st1 [[]|e|]]; intros H; [now exists st1|inversion H|inversion H].
  - destruct (run_shard_op sd o st) as [st1 [[]|e|]]; intros H; [now exists st1|inversion H|inversion H].
Qed.

Lemma expected_ok d c : dataset_ok d -> valid_chunk (d_shape d) (d_chunks d) c ->
  (if d_zarr d then Ok (prodw (d_chunks d)) else get_chunk_size d c) = Ok (prod (stored_shape d c)).
Proof.
  intros OK V. unfold stored_shape. destruct (stored_props OK V) as [P1 [P2 [P3 [P4 _]]]]. unfold stored_shape in P4.
  destruct (d_zarr d).
  - now rewrite prodw_small.
  - unfold get_chunk_size. rewrite (handle_ok OK V). cbn [bind ch_bounded]. now rewrite prodw_small.
Qed.

(** One call. *)
Lemma write_call p k st : py_dataset_ok p -> call_ok (pd_base p) k ->
  (call_fits (pd_base p) k = true -> forall st', chunk_op1 p (call_op k) st = (st', Ok tt) ->
     py_write_chunk p (map Z.of_N (call_chunk k)) (call_data k) (snd k) st = (st', PyOk tt)) /\
  (call_fits (pd_base p) k = false ->
     py_write_chunk p (map Z.of_N (call_chunk k)) (call_data k) (snd k) st = (st, PyRaise (CppError ERuntime))).
Proof.
  intros K [V [B [S1 S2]]]. assert (OK := ok_base p K). set (d := pd_base p) in *.
  destruct k as [[c data] vl]. unfold call_fits, call_op, call_chunk, call_data in *. cbn [fst snd] in *.
  assert (SM := valid_small (proj2 (do_dims OK)) V). unfold py_write_chunk. fold d.
  rewrite (to_sizes_ok SM). unfold sbind, pure. destruct vl.
  - split.
    + destruct (d_zarr d) eqn:Z; cbn [andb negb]; [discriminate|]. intros _ st' E.
      destruct p as [d'|sd]; cbn [chunk_op1 run_op run_shard_op pd_write_chunk] in *.
      * now rewrite E.
      * now rewrite E.
    + destruct (d_zarr d) eqn:Z; cbn [andb negb]; [reflexivity|discriminate].
  - rewrite andb_false_r, (expected_ok OK V). cbn [bind]. split.
    + intros ->. intros st' E. destruct p as [d'|sd]; cbn [chunk_op1 run_op run_shard_op pd_write_chunk] in *; now rewrite E.
    + intros ->. reflexivity.
Qed.

Lemma calls_run p l : py_dataset_ok p -> Forall (call_ok (pd_base p)) l -> forall st st',
  chunk_ops p (map call_op (filter (call_fits (pd_base p)) l)) st = (st', Ok tt) ->
  run_chunk_calls p l st = (st', map (fun k => if call_fits (pd_base p) k then PyOk tt else PyRaise (CppError ERuntime)) l).
Proof.
  intros K F. induction F as [|k l C F IH]; intros st st' E; cbn [filter map run_chunk_calls] in *.
  - destruct p; cbn in E; inversion E; reflexivity.
  - destruct (write_call st K C) as [W1 W2]. destruct (call_fits (pd_base p) k) eqn:X.
    + cbn [map] in E. apply chunk_ops_cons in E. destruct E as [st1 [E1 E2]].
      rewrite (W1 eq_refl st1 E1). now rewrite (IH _ _ E2).
    + rewrite (W2 eq_refl). now rewrite (IH _ _ E).
Qed.

Lemma fits_ok d k : call_ok d k -> call_fits d k = true -> op_ok d (call_op k).
Proof.
  intros [V [B [S1 [S2 S3]]]]. unfold call_fits, call_op. destruct k as [[c data] vl]. unfold call_chunk, call_data in *. cbn [fst snd] in *.
  destruct vl; cbn [op_ok].
  - intros Z. split; [now destruct (d_zarr d)|]. split; [exact V|]. split; [exact B|]. split; [exact S1|]. split; [exact S2|]. now apply S3.
  - intros E. apply N.eqb_eq in E. split; [exact V|]. now rewrite E in B.
Qed.
Lemma fits_all d l : Forall (call_ok d) l -> Forall (op_ok d) (map call_op (filter (call_fits d) l)).
Proof.
  induction 1 as [|k l C F IH]; cbn [filter]; [constructor|]. destruct (call_fits d k) eqn:X; [|exact IH].
  cbn [map]. constructor; [now apply fits_ok|exact IH].
Qed.
Lemma fits_fixed d l : d_zarr d = true -> Forall (call_ok d) l ->
  Forall (fun o => op_ok d o /\ fixed_op o) (map call_op (filter (call_fits d) l)).
Proof.
  intros Z. induction 1 as [|k l C F IH]; cbn [filter]; [constructor|]. destruct (call_fits d k) eqn:X; [|exact IH].
  cbn [map]. constructor; [|exact IH]. split; [now apply fits_ok|]. unfold call_fits in X. unfold call_op.
  destruct (snd k); [rewrite Z in X; discriminate|exact I].
Qed.

Definition read_result (d : dataset) (c : shape) (r : option (bool * list cell)) : option (shape * list cell) :=
  match r with
  | None => None
  | Some (vl, data) => Some (if vl then [lenN data] else stored_shape d c, data)
  end.

(** Reading a chunk of a plain dataset. *)
Lemma py_read_plain d st c r fresh : dataset_ok d -> valid_chunk (d_shape d) (d_chunks d) c ->
  chunk_holds d st c r -> (forall n, buffer_of (t_width (d_type d)) n (fresh n)) ->
  py_read_chunk (PyPlain d) fresh (map Z.of_N c) st = PyOk (read_result d c r).
Proof.
  intros OK V H FR. destruct (read_holds OK V H) as [R1 [R2 [_ R3]]].
  unfold py_read_chunk. rewrite (to_sizes_ok (valid_small (proj2 (do_dims OK)) V)). cbn [pbind pd_exists pd_varlen pd_read_chunk pd_base].
  rewrite R1. cbn [bind]. destruct r as [[vl data]|]; cbn [negb]; [|reflexivity].
  rewrite R2. cbn [bind fst snd]. destruct H as [b [H1 [H2 [H3 [H4 H5]]]]].
  destruct (stored_props OK V) as [_ [_ [_ [P4 _]]]].
  destruct vl; cbn [fst snd bind].
  - destruct (H5 eq_refl) as [_ [_ [S1 _]]].
    assert (PW : prodw [lenN data] = lenN data). { rewrite prodw_small; cbn [prod]; rewrite ?W64_val; lia. }
    rewrite PW. destruct (R3 true data eq_refl (lenN data) (fresh (lenN data)) (FR _) (N.le_refl _) ltac:(discriminate)) as [rest [E X]].
    rewrite E. cbn [bind snd from_cpp read_result]. destruct (FR (lenN data)) as [L _]. set (o := fresh _) in *.
    assert (rest = []).
    { apply length_zero_iff_nil. apply (f_equal (@length cell)) in X. rewrite app_length, firstn_length in X. unfold lenN in *. lia. }
    subst rest. now rewrite app_nil_r.
  - assert (SH : (if d_zarr d then Ok (d_chunks d) else get_chunk_shape d c) = Ok (stored_shape d c)).
    { unfold stored_shape. destruct (d_zarr d); [reflexivity|]. exact (chunk_shape_ok OK V). }
    rewrite SH. cbn [bind]. rewrite (prodw_small P4). specialize (H4 eq_refl).
    destruct (R3 false data eq_refl _ (fresh (prod (stored_shape d c))) (FR _) ltac:(lia) ltac:(reflexivity)) as [rest [E X]].
    rewrite E. cbn [bind snd from_cpp read_result]. destruct (FR (prod (stored_shape d c))) as [L _]. set (o := fresh _) in *.
    assert (rest = []).
    { apply length_zero_iff_nil. apply (f_equal (@length cell)) in X. rewrite app_length, firstn_length in X. unfold lenN in *. lia. }
    subst rest. now rewrite app_nil_r.
Qed.

Lemma py_read_shards sd st c r fresh : sharded_ok sd -> valid_chunk (d_shape (sd_base sd)) (d_chunks (sd_base sd)) c ->
  sh_chunk_exists sd st c = Ok (match r with None => false | Some _ => true end) ->
  (forall vl data, r = Some (vl, data) ->
     forall out, buffer_of (t_width (d_type (sd_base sd))) (prod (d_chunks (sd_base sd))) out ->
     vl = false /\ sh_read_chunk sd st c out = Ok (false, data)) ->
  (forall n, buffer_of (t_width (d_type (sd_base sd))) n (fresh n)) ->
  py_read_chunk (PyShards sd) fresh (map Z.of_N c) st = PyOk (read_result (sd_base sd) c r).
Proof.
  intros K V R1 R2 FR. assert (OK := so_base K). assert (Z := so_zarr K).
  unfold py_read_chunk. rewrite (to_sizes_ok (valid_small (proj2 (do_dims OK)) V)). cbn [pbind pd_exists pd_varlen pd_read_chunk pd_base].
  rewrite R1. cbn [bind]. destruct r as [[vl data]|]; cbn [negb]; [|reflexivity].
  unfold get_chunk_size. rewrite (handle_ok OK V). cbn [bind fst]. rewrite Z. cbn [bind].
  destruct (stored_props OK V) as [_ [_ [_ [P4 _]]]]. unfold stored_shape in P4. rewrite Z in P4.
  rewrite (prodw_small P4). destruct (R2 vl data eq_refl _ (FR (prod (d_chunks (sd_base sd))))) as [-> E].
  rewrite E. cbn [bind snd from_cpp read_result]. unfold stored_shape. now rewrite Z.
Qed.

Theorem chunk_calls_theorem p l st : py_dataset_ok p -> can_write (d_mode (pd_base p)) = true ->
  Forall (call_ok (pd_base p)) l -> new_dataset p st ->
  exists st', run_chunk_calls p l st =
      (st', map (fun k => if call_fits (pd_base p) k then PyOk tt else PyRaise (CppError ERuntime)) l) /\
    forall c fresh, valid_chunk (d_shape (pd_base p)) (d_chunks (pd_base p)) c ->
      (forall n, buffer_of (t_width (d_type (pd_base p))) n (fresh n)) ->
      py_read_chunk p fresh (map Z.of_N c) st' = PyOk (
        match last_result (pd_base p) (map call_op (filter (call_fits (pd_base p)) l)) c None with
        | None => None
        | Some (vl, data) => Some (if vl then [lenN data] else stored_shape (pd_base p) c, data)
        end).
Proof.
  intros K W F NW. destruct p as [d|sd]; cbn [pd_base py_dataset_ok new_dataset layout_of layout_ok layout_empty base] in *.
  - destruct (run_ops_spec K W (fits_all F) st) as [st' [E [H _]]].
    exists st'. split; [exact (@calls_run (PyPlain d) l K F st st' E)|]. intros c fresh V FR.
    apply (@py_read_plain d st' c _ fresh K V); [|exact FR]. apply H. exact (NW c V).
  - destruct (@shard_chunk_map sd _ st K W (fits_fixed (so_zarr K) F) NW) as [st' [E [H _]]].
    exists st'. split; [exact (@calls_run (PyShards sd) l K F st st' E)|]. intros c fresh V FR.
    destruct (H c V) as [H1 H2]. exact (@py_read_shards sd st' c _ fresh K V H1 H2 FR).
Qed.
