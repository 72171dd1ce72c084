(** Positions that are not inside of the dataset, given to the python layer. *)
From Coq Require Import ZArith Lia.
From Verif Require Import M_Base M_Key M_Blocking M_View M_Format M_Mode M_Dataset M_Sharded M_Access M_Python
  S_Array S_Grid S_Bytes S_Format S_Dataset S_Access S_Sharded S_Python
  P_Base P_Blocking P_Roi P_Dataset P_Access P_ShardedApi P_Python P_Python2 P_Python3 P_Python4.
Import List ListNotations.
Local Open Scope list_scope.
Local Open Scope N_scope.

Lemma to_sizes_some l : match to_sizes (map Some l) with
  | PyOk m => l = map Z.of_N m
  | PyRaise e => e = TypeError
  | PyUB => False
  end.
Proof.
  induction l as [|x l IH]; cbn [to_sizes map]; [reflexivity|]. cbn [to_size].
  destruct ((0 <=? x)%Z && (x <? Z.of_N W64)%Z) eqn:E; [|reflexivity].
  destruct (to_sizes (map Some l)); cbn [pbind] in *; [|assumption|assumption]. cbn [map]. rewrite IH. f_equal. lia.
Qed.

Lemma take_sizes_enough k l : (k <= length l)%nat -> take_sizes k l = Ok (firstn k l).
Proof. intros H. unfold take_sizes. destruct (Nat.ltb_spec (length l) k); [lia|reflexivity]. Qed.

Lemma refused d off n : (forall o e, In (o, e) (combine off n) -> o + e < W64) ->
  ~ valid_region (d_shape d) off n -> begin_request d off n = Throw ERuntime.
Proof.
  intros W V. unfold begin_request. rewrite (proj2 (proj2 (@check_request_exact _ _ _ W)) V). reflexivity.
Qed.
Lemma refused_write p off n src st : (forall o e, In (o, e) (combine off n) -> o + e < W64) ->
  ~ valid_region (d_shape (pd_base p)) off n -> pd_write p src off n st = (st, Throw ERuntime).
Proof.
  intros W V. destruct p as [d|sd]; cbn [pd_write pd_base] in *; unfold write_request, sh_write_request, sbind, pure;
    now rewrite (refused W V).
Qed.
Lemma refused_read p off n st out : (forall o e, In (o, e) (combine off n) -> o + e < W64) ->
  ~ valid_region (d_shape (pd_base p)) off n -> pd_read p st (make_view n) off out = Throw ERuntime.
Proof.
  intros W V. destruct p as [d|sd]; cbn [pd_read pd_base] in *; unfold read_subarray, sh_read_subarray; cbn [v_shape make_view];
    now rewrite (refused W V).
Qed.

Lemma combine_map_Z (off n : shape) (o e : N) : In (o, e) (combine off n) -> In (Z.of_N o, e) (combine (map Z.of_N off) n).
Proof.
  revert n. induction off as [|x off IH]; intros [|y n]; cbn [combine map In]; try tauto.
  intros [[= -> ->]|H]; [now left|right; now apply IH].
Qed.
Lemma combine_firstn {A B} (l : list A) (n : list B) : combine (firstn (length n) l) n = combine l n.
Proof. revert n. induction l as [|x l IH]; intros [|y n]; cbn [firstn length combine]; try reflexivity. now rewrite IH. Qed.

Theorem write_refused p start n data st : (length n <= length start)%nat ->
  (forall a e, In (a, e) (combine start n) -> (a + Z.of_N e < Z.of_N W64)%Z) ->
  (forall off, firstn (length n) start = map Z.of_N off -> ~ valid_region (d_shape (pd_base p)) off n) ->
  exists e, py_write_subarray p start n data st = (st, PyRaise e).
Proof.
  intros L W V. unfold py_write_subarray, py_write_view. assert (T := to_sizes_some start).
  destruct (to_sizes (map Some start)) as [m|e|]; [|now exists e|contradiction]. subst start.
  rewrite map_length in L. rewrite (take_sizes_enough L). rewrite firstn_map in V.
  rewrite refused_write; [now eexists| |now apply V].
  intros o e I. rewrite combine_firstn in I. specialize (W _ _ (combine_map_Z I)). lia.
Qed.

Theorem read_refused p fresh start stop st : length start = length stop ->
  (forall a, In a stop -> (a < Z.of_N W64)%Z) ->
  (forall off n, start = map Z.of_N off -> stop = map Z.of_N (vadd off n) -> length n = length off ->
     ~ valid_region (d_shape (pd_base p)) off n) ->
  exists e, py_read_subarray p fresh start stop st = PyRaise e.
Proof.
  intros LS W V. unfold py_read_subarray. destruct (existsb _ _) eqn:NN; [now eexists|].
  unfold py_read_view. assert (T := to_sizes_some start).
  destruct (to_sizes (map Some start)) as [off|e|]; [|now exists e|contradiction]. cbn [pbind].
  set (n := map Z.to_N (map2 (fun a b => (b - a)%Z) start stop)).
  assert (L : length n = length off).
  { unfold n. subst start. rewrite map_length. rewrite map_length in LS. clear -LS. revert stop LS.
    induction off as [|x off IH]; intros [|y stop] LS; cbn [map map2 length] in *; try lia. rewrite (IH stop); lia. }
  rewrite (@take_sizes_enough (length n) off) by lia. cbn [bind]. rewrite L, firstn_all.
  rewrite refused_read; [now eexists| |].
  - intros o e I. unfold n in I. subst start. clear L n V LS.
    revert stop W NN I. induction off as [|x off IH]; intros [|y stop] W NN I; cbn [map map2 combine existsb In] in *; try contradiction.
    apply orb_false_iff in NN. destruct NN as [N1 N2]. destruct I as [[= <- <-]|I].
    + specialize (W y (or_introl eq_refl)). lia.
    + eapply IH; [|exact N2|exact I]. intros a Ha. apply W. now right.
  - apply V; [exact T| |exact L]. unfold n. subst start. rewrite map_length in LS. clear -LS NN. revert stop LS NN.
    induction off as [|x off IH]; intros [|y stop] LS NN; cbn [map map2 length existsb] in *; try discriminate; [reflexivity|].
    apply orb_false_iff in NN. destruct NN as [N1 N2]. unfold vadd in *. cbn [map2 map].
    f_equal; [lia|]. apply IH; [now injection LS|exact N2].
Qed.

Lemma invalid_pd p c data vl k st : py_dataset_ok p -> ~ valid_chunk (d_shape (pd_base p)) (d_chunks (pd_base p)) c ->
  (length (d_chunks (pd_base p)) <= length c)%nat ->
  exists e, pd_write_chunk p c data vl k st = (st, Throw e).
Proof.
  destruct p as [d|sd]; intros K V L; cbn [pd_base pd_write_chunk] in *.
  - exact (proj1 (invalid_chunk K V L) data vl k st).
  - exact (@shard_invalid_write sd c K V L data vl st).
Qed.

Theorem chunk_refused p ids data vl st : py_dataset_ok p -> (length (d_shape (pd_base p)) <= length ids)%nat ->
  (forall c, ids = map Z.of_N c -> ~ valid_chunk (d_shape (pd_base p)) (d_chunks (pd_base p)) c) ->
  exists e, py_write_chunk p ids data vl st = (st, PyRaise e).
Proof.
  intros K L V. unfold py_write_chunk. destruct (d_zarr (pd_base p) && vl); [now eexists|].
  assert (T := to_sizes_some ids). destruct (to_sizes (map Some ids)) as [c|e|]; [|now exists e|contradiction].
  specialize (V c T). subst ids. rewrite map_length in L.
  assert (LD := all2_length (proj2 (do_dims (ok_base p K)))).
  unfold sbind at 1, pure at 1. destruct vl.
  - destruct (@invalid_pd p c data true (lenN data) st K V) as [e ->]; [|now exists (CppError e)]. lia.
  - destruct (if d_zarr (pd_base p) then _ else _) as [x|e|] eqn:E; cbn [bind].
    + destruct (lenN data =? x); [|now eexists].
      destruct (@invalid_pd p c data false 0 st K V) as [e ->]; [|now exists (CppError e)]. lia.
    + now eexists.
    + exfalso. destruct (d_zarr (pd_base p)); [discriminate|]. unfold get_chunk_size, chunk_handle_of in E.
      assert (lenN c <? lenN (d_chunks (pd_base p)) = false) as X by (apply N.ltb_ge; unfold lenN; lia). rewrite X in E.
      assert (lenN (d_shape (pd_base p)) <? lenN (d_chunks (pd_base p)) = false) as Y by (apply N.ltb_ge; unfold lenN; lia).
      rewrite Y in E. discriminate.
Qed.
