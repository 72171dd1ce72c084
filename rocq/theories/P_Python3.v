(** Proofs about item access of python datasets. *)
From Coq Require Import ZArith Lia ZifyBool ZifyNat ZifyN.
From Verif Require Import M_Base P_Base M_Key M_Blocking M_View M_Format M_Mode M_Dataset M_Sharded M_Access M_Python
  S_Array S_Grid S_Bytes S_Format S_Dataset S_Access S_Sharded S_Python
  P_Blocking P_View P_Dataset P_Access P_Read P_History P_Sharded P_Python P_Python2.
Import ListNotations.
Local Open Scope list_scope.
Local Open Scope N_scope.

(** * C-contiguous arrays *)

Lemma c_view_addr n i : prod n < W64 -> in_shape n i ->
  v_off (make_view n) + lin (v_strides (make_view n)) i = rowmajor n i.
Proof.
  intros W H. cbn [make_view v_off v_strides]. pose proof (rowmajor_lt H).
  rewrite c_strides_spec by lia. rewrite N.add_0_l. apply lin_suffix. symmetry. exact (in_shape_len H).
Qed.

Lemma c_view_ok n : prod n < W64 -> out_view_ok (make_view n) (prod n).
Proof.
  intros W. split; [apply c_strides_length|]. cbn [v_shape make_view]. split.
  - intros i I. rewrite (c_view_addr W I). now apply rowmajor_lt.
  - intros i j I J E. apply (rowmajor_inj I J). rewrite <- (c_view_addr W I), <- (c_view_addr W J). f_equal. exact E.
Qed.

Lemma c_source_ok w n data : prod n < W64 -> buffer_of w (prod n) data -> source_ok w n (FromView (make_view n) data).
Proof.
  intros W [L F]. split; [reflexivity|]. split; [apply c_strides_length|]. split; [|exact F].
  intros i I. rewrite (c_view_addr W I), L. now apply rowmajor_lt.
Qed.

(** * Contents *)

Definition cells_ok (d : dataset) (a : shape -> cell) : Prop :=
  forall x, in_shape (d_shape d) x -> lenN (a x) = t_width (d_type d) /\ Forall is_byte (a x).

(** Store [st] holds array [a]. *)
Definition stores (p : py_dataset) (st : store) (a : shape -> cell) : Prop :=
  cells_ok (pd_base p) a /\
  match p with
  | PyPlain d => exists C, holds d st C /\ represents d C a
  | PyShards sd => exists m C, prod (sd_cps sd) * m < W64 - 1 /\
      (forall data, buffer_of (t_width (d_type (sd_base sd))) (prod (d_chunks (sd_base sd))) data ->
         forall e, stored_as (d_codec (sd_base sd)) (concat data) e -> 0 < lenN e /\ lenN e <= m) /\
      holds_sh sd m (own_blob sd) own_shard (fun _ => True) st C /\ represents (sd_base sd) C a
  end.

Lemma ok_base (p : py_dataset) : py_dataset_ok p -> dataset_ok (pd_base p).
Proof. destruct p as [d|sd]; cbn; [easy|]. intros H. apply (so_base H). Qed.

Arguments ok_base p _ : clear implicits.

Lemma stores_ext p st a a' : (forall x, in_shape (d_shape (pd_base p)) x -> a x = a' x) -> stores p st a -> stores p st a'.
Proof.
  intros E [A B]. split; [intros x X; rewrite <- E by assumption; now apply A|].
  destruct p as [d|sd].
  - destruct B as [C [H R]]. exists C. split; [exact H|]. intros x X. rewrite <- E by assumption. now apply R.
  - destruct B as [m [C [M1 [M2 [H R]]]]]. exists m, C. split; [exact M1|]. split; [exact M2|]. split; [exact H|].
    intros x X. rewrite <- E by assumption. now apply R.
Qed.

Lemma stores_new p st : py_dataset_ok p -> new_dataset p st -> stores p st (fun _ => d_fill (pd_base p)).
Proof.
  intros K E. split; [intros x _; apply (do_fill (ok_base p K))|].
  destruct p as [d|sd]; cbn in *.
  - exists (fun _ => None). split; [exact (@holds_empty d st E)|apply represents_empty].
  - destruct (so_blob K) as [m [M1 M2]]. exists m, (fun _ => None). split; [exact M1|]. split; [exact M2|].
    split; [exact (@holds_sh_empty sd K m M1 M2 (own_blob sd) (@own_blob_ok sd) own_shard (@own_shard_ok sd) _ st E)|apply represents_empty].
Qed.

Definition pd_op (p : py_dataset) (o : array_op) : action unit :=
  match p with PyPlain d => run_array_op d o | PyShards sd => run_sharded_op sd o end.

Lemma stores_op p o st a : py_dataset_ok p -> can_write (d_mode (pd_base p)) = true -> array_op_ok (pd_base p) o ->
  stores p st a -> exists st', pd_op p o st = (st', Ok tt) /\ stores p st' (apply_op (pd_base p) o a).
Proof.
  intros K W O [A B].
  assert (CO : cells_ok (pd_base p) (apply_op (pd_base p) o a)).
  { assert (X := @apply_ops_cells (pd_base p) (ok_base p K) [o] ltac:(now constructor) a A). exact X. }
  destruct p as [d|sd]; cbn [pd_op pd_base] in *.
  - destruct B as [C [H R]]. destruct (@run_array_op_spec d K o st C a W O H R) as [st' [C' [E [H' [R' _]]]]].
    exists st'. split; [exact E|]. split; [exact CO|]. now exists C'.
  - destruct B as [m [C [M1 [M2 [H R]]]]].
    destruct (@run_sharded_op_spec sd K m M1 M2 (own_blob sd) (@own_blob_ok sd) own_shard (@own_shard_ok sd) (fun _ => True) o st C a (fun _ => Logic.I) W O H R) as [st' [C' [E [H' [R' _]]]]].
    exists st'. split; [exact E|]. split; [exact CO|]. now exists m, C'.
Qed.

Lemma stores_read p st a n off out : py_dataset_ok p -> stores p st a -> region_ok (pd_base p) off n ->
  prod n < W64 -> lenN out = prod n ->
  exists out', pd_read p st (make_view n) off out = Ok out' /\ lenN out' = prod n /\
    forall i, in_shape n i -> exists c, getN out' (rowmajor n i) = Ok c /\ reads_as (pd_base p) c (a (vadd off i)).
Proof.
  intros K [A B] R W L.
  assert (V : out_view_ok (make_view n) (lenN out)) by (rewrite L; now apply c_view_ok).
  assert (IN : forall i, in_shape n i -> in_shape (d_shape (pd_base p)) (vadd off i)).
  { intros i I. destruct R as [R _]. eapply region_in_shape; [exact R|]. apply sub_in_box; [|exact I].
    unfold valid_region in R; apply all3_length in R; lia. }
  destruct p as [d|sd]; cbn [pd_read pd_base] in *.
  - destruct B as [C [H RP]].
    destruct (@read_subarray_spec d K (make_view n) off st C out R H V) as [out' [E [L' [G _]]]].
    exists out'. split; [exact E|]. split; [lia|]. intros i I. exists (val d C (vadd off i)).
    split; [rewrite <- (c_view_addr W I); now apply G|]. split; [now apply RP, IN|]. intros F.
    destruct (@val_cell d K st C _ H (IN i I)) as [V1 V2]. destruct (A _ (IN i I)) as [A1 A2].
    eapply (@same_value_int d K); eauto.
  - destruct B as [m [C [M1 [M2 [H RP]]]]].
    destruct (@sh_read_subarray_spec sd K m M1 M2 (own_blob sd) (@own_blob_ok sd) own_shard (@own_shard_ok sd) (fun _ => True) (make_view n) off st C out R (fun _ _ => Logic.I) H V)
      as [out' [E [L' [G _]]]].
    exists out'. split; [exact E|]. split; [lia|]. intros i I. exists (val (sd_base sd) C (vadd off i)).
    split; [rewrite <- (c_view_addr W I); now apply G|]. split; [now apply RP, IN|]. intros F.
    destruct (@val_cell_sh sd K m (own_blob sd) own_shard (fun _ => True) st C _ Logic.I H (IN i I)) as [V1 V2]. destruct (A _ (IN i I)) as [A1 A2].
    eapply (@same_value_int (sd_base sd) (so_base K)); eauto.
Qed.

Lemma box_sub o n x : in_boxb o n x = true -> in_shape n (vsub x o).
Proof.
  intros B. apply in_boxb_spec in B. destruct (in_box_sub B) as [c [I ->]].
  rewrite vsub_vadd; [exact I|]. destruct (in_box_length B) as [L1 L2]. rewrite (in_shape_len I). lia.
Qed.

Lemma stores_write p st a off n v : py_dataset_ok p -> can_write (d_mode (pd_base p)) = true ->
  stores p st a -> region_ok (pd_base p) off n -> source_ok (t_width (d_type (pd_base p))) n v ->
  forall f, (forall i, in_shape n i -> source_value v i = f i) ->
  exists st', pd_write p v off n st = (st', Ok tt) /\ stores p st' (np_assign off n f a).
Proof.
  intros K W S R V f F. destruct (@stores_op p (AWrite off n v) st a K W) as [st' [E S']]; [now split|exact S|].
  exists st'. split; [destruct p; exact E|]. eapply stores_ext; [|exact S'].
  intros x _. cbn [apply_op]. unfold np_assign. destruct (in_boxb off n x) eqn:B; [|reflexivity].
  apply F. now apply box_sub.
Qed.

Lemma stores_chunk p st a c data : py_dataset_ok p -> can_write (d_mode (pd_base p)) = true ->
  stores p st a -> valid_chunk (d_shape (pd_base p)) (d_chunks (pd_base p)) c ->
  buffer_of (t_width (d_type (pd_base p))) (prod (stored_shape (pd_base p) c)) data ->
  exists st', pd_write_chunk p c data false 0 st = (st', Ok tt) /\
    stores p st' (py_apply (pd_base p) (PyChunk (map Z.of_N c) data) a).
Proof.
  intros K W S V B. destruct (@stores_op p (AChunk c data) st a K W) as [st' [E S']]; [now split|exact S|].
  exists st'. split; [destruct p; exact E|]. eapply stores_ext; [|exact S'].
  intros x X. cbn [apply_op py_apply]. cbn zeta. unfold np_assign. set (d := pd_base p) in *.
  assert (ID : map Z.to_N (map Z.of_N c) = c).
  { rewrite map_map. rewrite <- (map_id c) at 2. apply map_ext. intros; apply N2Z.id. }
  rewrite ID. assert (OK := ok_base p K). fold d in OK.
  destruct (elem_chunk OK X) as [V1 [_ [V3 V4]]]. fold d in V1.
  destruct (list_eq_dec N.eq_dec (chunk_of (d_chunks d) x) c) as [<-|NE].
  - assert (L : length (chunk_origin (d_chunks d) (chunk_of (d_chunks d) x)) = length (pos_of (d_chunks d) x)).
    { rewrite (origin_length V1). rewrite (in_shape_len V3). destruct (extent_props OK V1) as [_ [_ [_ ->]]]. reflexivity. }
    assert (B1 : in_boxb (chunk_origin (d_chunks d) (chunk_of (d_chunks d) x))
                         (chunk_extent (d_shape d) (d_chunks d) (chunk_of (d_chunks d) x)) x = true).
    { apply in_boxb_spec. rewrite <- V4 at 3. apply sub_in_box; [|exact V3]. rewrite L. exact (in_shape_len V3). }
    rewrite B1. assert (SU := @vsub_vadd _ _ L). rewrite V4 in SU. now rewrite SU.
  - destruct (in_boxb _ _ x) eqn:B1; [|reflexivity]. apply in_boxb_spec in B1. destruct (in_box_sub B1) as [q [Q1 ->]].
    destruct (elem_unique OK V Q1) as [_ [Q2 _]]. congruence.
Qed.

(** * Regions of interest *)

Definition raises_roi := @raises (list (option Z) * list Z * list nat).

Lemma selects_box ss sq ps : selects true ss sq ps -> sq = dropped_axes 0 ps /\
  same_box ps (map fst ss) (map (fun p : pslice => match fst p with None => 0%Z | Some a => (snd p - a)%Z end) ss).
Proof.
  intros [F ->]. split; [reflexivity|]. unfold same_box, np_count. rewrite map_map, map_length. split; [|split].
  - induction F as [|s p ss ps [[A _]|[? _]] F IH]; [reflexivity| |discriminate]. cbn [map]. f_equal; [exact A|exact IH].
  - exact (all2_len F).
  - induction F as [|s p ss ps [[_ [A _]]|[? _]] F IH]; intros [|k] q; cbn [nth_error map]; try discriminate.
    + intros H. inversion H; subst. intros P. now rewrite A.
    + apply IH.
Qed.

Theorem roi_spec sh ix :
  let r := index_to_roi ix (map Z.of_N sh) in
  (np_select sh ix = None -> raises r) /\
  (forall ps, np_select sh ix = Some ps -> regular_index sh ix -> exists roi_begin zn,
     r = PyOk (roi_begin, zn, dropped_axes 0 ps) /\ same_box ps roi_begin zn) /\
  r <> PyUB.
Proof.
  intros r. destruct (normalize_spec sh ix) as [A [B C]]. unfold r, index_to_roi. split; [|split].
  - intros N0. destruct (A N0) as [e ->]. now eexists.
  - intros ps P O. destruct (B ps P O) as [ss [sq [-> S]]]. cbn [pbind]. destruct (selects_box S) as [-> X].
    eexists _, _. split; [reflexivity|exact X].
  - destruct (normalize_slices ix (map Z.of_N sh)) as [[n sq]|e|]; cbn [pbind]; congruence.
Qed.

(** Picks lie inside of the array. *)
Lemma axis_inside n i p : np_axis n i = Some p ->
  (0 < p_count p -> p_first p + p_count p <= n) /\ (p_dropped p = true -> p_count p = 1).
Proof.
  destruct i as [i|a b k| |]; cbn [np_axis]; try discriminate.
  - destruct ((_ <=? i)%Z && _) eqn:B; [|discriminate]. intros H. inversion H; subst. cbn [p_first p_count p_dropped].
    split; [|reflexivity]. destruct (i <? 0)%Z eqn:Q; lia.
  - destruct (match k with Some k => _ | None => true end); [|discriminate]. intros H. inversion H; subst.
    cbn [p_first p_count p_dropped]. split; [|discriminate]. unfold np_bound.
    destruct a as [a|], b as [b|]; repeat match goal with |- context [(?x <? 0)%Z] => destruct (x <? 0)%Z eqn:? end; lia.
Qed.

Lemma axes_inside l : forall sh ps, np_axes sh l = Some ps ->
  Forall2 (fun n p => (0 < p_count p -> p_first p + p_count p <= n) /\ (p_dropped p = true -> p_count p = 1)) sh ps.
Proof.
  induction l as [|i l IH]; intros [|n sh] ps H; cbn [np_axes] in H; try discriminate.
  - inversion H. constructor.
  - destruct (np_axis n i) eqn:A; [|discriminate]. destruct (np_axes sh l) eqn:B; [|discriminate]. inversion H.
    constructor; [exact (axis_inside A)|exact (IH _ _ B)].
Qed.

Definition inside (sh : shape) (ps : list pick) : Prop :=
  Forall2 (fun n p => (0 < p_count p -> p_first p + p_count p <= n) /\ (p_dropped p = true -> p_count p = 1)) sh ps.

Lemma select_inside sh ix ps : np_select sh ix = Some ps -> inside sh ps.
Proof. unfold np_select. destruct (np_expand _ _); [|discriminate]. apply axes_inside. Qed.

Lemma no_zero l : existsb (N.eqb 0) l = false <-> Forall (fun n => 0 < n) l.
Proof.
  induction l as [|x l IH]; cbn [existsb]; [split; constructor|]. rewrite orb_false_iff, IH. split.
  - intros [A B]. constructor; [lia|exact B].
  - intros H. inversion H; subst. split; [lia|assumption].
Qed.

Lemma inside_region sh ps : inside sh ps -> Forall (fun n => 0 < n) (np_count ps) -> valid_region sh (np_first ps) (np_count ps).
Proof.
  unfold valid_region. induction 1 as [|n p sh ps [A _] H IH]; intros F; cbn; [exact Logic.I|].
  inversion F; subst. split; [|now apply IH]. lia.
Qed.

Lemma dims_small sh b : all2 (fun s b => 0 < b /\ s + b <= W64) sh b -> Forall (fun n => n < W64) sh.
Proof. revert b; induction sh as [|x sh IH]; intros [|y b] H; cbn in H; try tauto; constructor; [lia|]. eapply IH, H. Qed.

Lemma valid_small s : forall b c, all2 (fun s b => 0 < b /\ s + b <= W64) s b -> valid_chunk s b c -> Forall (fun n => n < W64) c.
Proof.
  unfold valid_chunk. induction s as [|x s IH]; intros [|y b] [|k c] D V; cbn in D, V; try contradiction; constructor.
  - nia.
  - apply (IH b); tauto.
Qed.

Lemma to_size_ok n : n < W64 -> to_size (Some (Z.of_N n)) = Some n.
Proof.
  intros B. cbn [to_size]. destruct ((0 <=? Z.of_N n)%Z && (Z.of_N n <? Z.of_N W64)%Z) eqn:E; [|lia].
  now rewrite N2Z.id.
Qed.
Lemma to_sizes_ok l : Forall (fun n => n < W64) l -> to_sizes (map Some (map Z.of_N l)) = PyOk l.
Proof.
  induction 1 as [|n l B F IH]; [reflexivity|]. cbn [map to_sizes]. rewrite to_size_ok by assumption. rewrite IH. reflexivity.
Qed.

Lemma box_begin sh ps rb zn : inside sh ps -> Forall (fun n => 0 < n) (np_count ps) -> same_box ps rb zn ->
  rb = map Some (map Z.of_N (np_first ps)).
Proof.
  intros I F [_ [L G]]. unfold np_first, np_count in *. clear I. revert rb L G F.
  induction ps as [|p ps IH]; intros [|r rb] L G F; cbn [length map] in *; try discriminate; [reflexivity|].
  inversion F; subst. f_equal.
  - specialize (G O p eq_refl ltac:(assumption)). cbn in G. congruence.
  - apply IH; [lia| |assumption]. intros k q Q1 Q2. exact (G (S k) q Q1 Q2).
Qed.

Lemma first_small sh ps : inside sh ps -> Forall (fun n => 0 < n) (np_count ps) -> Forall (fun n => n < W64) sh ->
  Forall (fun n => n < W64) (np_first ps).
Proof.
  unfold np_first, np_count. induction 1 as [|n p sh ps [A _] H IH]; intros F S; cbn [map] in *; [constructor|].
  inversion F; inversion S; subst. constructor; [lia|now apply IH].
Qed.

Lemma take_sizes_ok k l : length l = k -> take_sizes k l = Ok l.
Proof.
  intros <-. unfold take_sizes. rewrite Nat.ltb_irrefl. now rewrite firstn_all.
Qed.

Lemma map_id_N l : map Z.to_N (map Z.of_N l) = l.
Proof. rewrite map_map. rewrite <- (map_id l) at 2. apply map_ext. intros; apply N2Z.id. Qed.
Lemma none_neg l : existsb (fun z => (z <? 0)%Z) (map Z.of_N l) = false.
Proof. induction l as [|x l IH]; cbn [map existsb]; [reflexivity|]. rewrite IH. lia. Qed.
Lemma zero_Z l : existsb (Z.eqb 0) (map Z.of_N l) = existsb (N.eqb 0) l.
Proof. induction l as [|x l IH]; cbn [map existsb]; [reflexivity|]. rewrite IH. f_equal. lia. Qed.

(** * Removing axes *)

Fixpoint expand (ps : list pick) (j : shape) : shape :=
  match ps with
  | [] => []
  | p :: r => if p_dropped p then 0 :: expand r j
              else match j with x :: j' => x :: expand r j' | [] => 0 :: expand r [] end
  end.

Lemma expand_spec sh ps : inside sh ps -> forall j, in_shape (np_shape ps) j ->
  in_shape (np_count ps) (expand ps j) /\ rowmajor (np_count ps) (expand ps j) = rowmajor (np_shape ps) j /\
  vadd (np_first ps) (expand ps j) = np_position ps j.
Proof.
  unfold np_shape, np_count, np_first.
  assert (P : inside sh ps -> prod (map p_count (filter (fun p => negb (p_dropped p)) ps)) = prod (map p_count ps)).
  { induction 1 as [|n p sh ps [_ A] H IH]; [reflexivity|]. cbn [filter]. destruct (p_dropped p) eqn:D; cbn [negb map prod].
    - rewrite IH, A by reflexivity. lia.
    - now rewrite IH. }
  intros H. induction H as [|n p sh ps [_ A] H IH]; intros j I; cbn [filter map] in *.
  - inversion I; subst. repeat split; constructor.
  - destruct p as [f k dr]. cbn [p_dropped p_first p_count expand np_position negb] in *.
    assert (P' : inside sh ps -> prod (map p_count (filter (fun p => negb (p_dropped p)) ps)) = prod (map p_count ps)).
    { clear. induction 1 as [|n p sh ps [_ A] H IH]; [reflexivity|]. cbn [filter]. destruct (p_dropped p) eqn:D; cbn [negb map prod].
      - rewrite IH, A by reflexivity. lia.
      - now rewrite IH. }
    destruct dr; cbn [negb map p_count] in *.
    + rewrite A by reflexivity. destruct (IH P' j I) as [G1 [G2 G3]]. split; [|split].
      * constructor; [lia|exact G1].
      * cbn [rowmajor]. rewrite G2. lia.
      * cbn [vadd map2]. unfold vadd in G3. cbn. rewrite G3. f_equal. lia.
    + inversion I as [|x ? j' ? X J]; subst. destruct (IH P' j' J) as [G1 [G2 G3]]. split; [|split].
      * constructor; assumption.
      * cbn [rowmajor]. rewrite G2, P' by assumption. reflexivity.
      * unfold vadd in *. cbn. now rewrite G3.
Qed.

Lemma shape_prod sh ps : inside sh ps -> prod (np_shape ps) = prod (np_count ps).
Proof.
  unfold np_shape, np_count. induction 1 as [|n p sh ps [_ A] H IH]; [reflexivity|]. cbn [filter].
  destruct (p_dropped p) eqn:D; cbn [negb map prod].
  - rewrite IH, A by reflexivity. lia.
  - now rewrite IH.
Qed.

Lemma dropped_above ps : forall k i, In i (dropped_axes k ps) -> (k <= i)%nat.
Proof.
  induction ps as [|p ps IH]; intros k i; cbn [dropped_axes]; [contradiction|].
  destruct (p_dropped p); cbn [In]; intros H; [destruct H as [<-|H]; [lia|]|]; apply IH in H; lia.
Qed.

Lemma squeeze_gen sh ps : inside sh ps -> forall k pre, (forall i, In i pre -> (i < k)%nat) ->
  np_squeeze k (pre ++ dropped_axes k ps) (np_count ps) = PyOk (np_shape ps).
Proof.
  unfold np_shape, np_count. induction 1 as [|n p sh ps [_ A] H IH]; intros k pre P; [reflexivity|].
  cbn [map np_squeeze filter dropped_axes]. destruct (p_dropped p) eqn:D; cbn [negb map].
  - assert (X : existsb (Nat.eqb k) (pre ++ k :: dropped_axes (S k) ps) = true).
    { apply existsb_exists. exists k. split; [|apply Nat.eqb_refl]. apply in_or_app. right. now left. }
    rewrite X, A by reflexivity. cbn [N.eqb Pos.eqb].
    replace (pre ++ k :: dropped_axes (S k) ps) with ((pre ++ [k]) ++ dropped_axes (S k) ps) by now rewrite <- app_assoc.
    apply IH. intros i I. apply in_app_or in I. destruct I as [I|[<-|[]]]; [apply P in I|]; lia.
  - assert (X : existsb (Nat.eqb k) (pre ++ dropped_axes (S k) ps) = false).
    { destruct (existsb _ _) eqn:E; [|reflexivity]. apply existsb_exists in E. destruct E as [i [I E]].
      apply Nat.eqb_eq in E. subst i. apply in_app_or in I. destruct I as [I|I]; [apply P in I; lia|].
      apply dropped_above in I. lia. }
    rewrite X, IH; [reflexivity|]. intros i I. apply P in I. lia.
Qed.
Lemma squeeze_ok sh ps : inside sh ps -> np_squeeze 0 (dropped_axes 0 ps) (np_count ps) = PyOk (np_shape ps).
Proof. intros H. apply (@squeeze_gen sh ps H 0%nat []). intros i []. Qed.

Lemma dropped_length ps : forall k, (length (dropped_axes k ps) <= length ps)%nat /\
  (length (dropped_axes k ps) = length ps <-> Forall (fun p => p_dropped p = true) ps) /\
  (dropped_axes k ps = [] <-> Forall (fun p => p_dropped p = false) ps).
Proof.
  induction ps as [|p ps IH]; intros k; cbn [dropped_axes length].
  - repeat split; try lia; constructor.
  - destruct (IH (S k)) as [A [B C]]. destruct (p_dropped p) eqn:D; cbn [length].
    + split; [lia|]. split.
      * split; intros H; [constructor; [exact D|apply B; lia]|inversion H; subst; f_equal; now apply B].
      * split; [discriminate|intros H; inversion H; congruence].
    + split; [lia|]. split.
      * split; intros H; [lia|inversion H; congruence].
      * rewrite C. split; intros H; [now constructor|now inversion H].
Qed.

Lemma some_kept ps : ~ Forall (fun p => p_dropped p = true) ps -> Exists (fun p => p_dropped p = false) ps.
Proof.
  induction ps as [|p ps IH]; intros H; [elim H; constructor|]. destruct (p_dropped p) eqn:D; [|now left].
  right. apply IH. intros X. apply H. now constructor.
Qed.
Lemma none_dropped_shape ps : Forall (fun p => p_dropped p = false) ps -> np_shape ps = np_count ps.
Proof. unfold np_shape, np_count. induction 1 as [|p ps D H IH]; [reflexivity|]. cbn [filter]. rewrite D. cbn [negb map]. now rewrite IH. Qed.
Lemma all_dropped_count sh ps : inside sh ps -> Forall (fun p => p_dropped p = true) ps -> np_shape ps = [] /\ prod (np_count ps) = 1.
Proof.
  unfold np_shape, np_count. induction 1 as [|n p sh ps [_ A] H IH]; intros F; [now split|]. inversion F; subst.
  destruct (IH ltac:(assumption)) as [G1 G2]. cbn [filter map prod]. rewrite H2. cbn [negb]. rewrite G1, G2, A by assumption. now split.
Qed.
Lemma has_zero l : existsb (N.eqb 0) l = true -> prod l = 0.
Proof.
  induction l as [|x l IH]; cbn [existsb prod]; [discriminate|]. intros H. apply orb_true_iff in H.
  destruct H as [H|H]; [apply N.eqb_eq in H; subst; lia|rewrite IH by assumption; lia].
Qed.

(** * Reading *)

Lemma getitem_box p st a ix ps fresh rb zn : py_dataset_ok p -> stores p st a ->
  index_to_roi ix (map Z.of_N (d_shape (pd_base p))) = PyOk (rb, zn, dropped_axes 0 ps) ->
  same_box ps rb zn -> inside (d_shape (pd_base p)) ps ->
  small_request (d_chunks (pd_base p)) (np_count ps) -> prod (np_count ps) < W64 ->
  (forall n, lenN (fresh n) = n) ->
  exists v, py_getitem p fresh ix st = PyOk v /\ np_value (pd_base p) a ps v.
Proof.
  intros K S E BOX IN SM W FR. set (d := pd_base p) in *.
  assert (OK := ok_base p K). fold d in OK.
  unfold py_getitem. fold d. rewrite E. cbn [pbind]. assert (ZN := proj1 BOX). rewrite ZN, none_neg, map_id_N.
  rewrite fold_mul, N.mul_1_l. cbn zeta.
  assert (LS : length (np_count ps) = length ps) by apply map_length.
  assert (G : exists out, (if existsb (N.eqb 0) (np_count ps) then PyOk (fresh (prod (np_count ps)))
       else py_read_view p st (np_count ps) (fresh (prod (np_count ps))) rb) = PyOk out /\ lenN out = prod (np_count ps) /\
       forall i, in_shape (np_count ps) i -> exists c, getN out (rowmajor (np_count ps) i) = Ok c /\ reads_as d c (a (vadd (np_first ps) i))).
  { destruct (existsb (N.eqb 0) (np_count ps)) eqn:Z.
    - exists (fresh (prod (np_count ps))). split; [reflexivity|]. split; [apply FR|].
      intros i I. apply rowmajor_lt in I. rewrite (has_zero Z) in I. lia.
    - apply no_zero in Z.
      assert (R : region_ok d (np_first ps) (np_count ps)) by (split; [now apply inside_region|exact SM]).
      destruct (@stores_read p st a (np_count ps) (np_first ps) (fresh (prod (np_count ps))) K S R W (FR _)) as [out [O1 [O2 O3]]].
      exists out. split; [|split; assumption]. unfold py_read_view. rewrite (box_begin IN Z BOX).
      rewrite to_sizes_ok by (eapply first_small; eauto; eapply dims_small, (proj2 (do_dims OK))). cbn [pbind].
      rewrite take_sizes_ok by (unfold np_first, np_count; now rewrite !map_length). cbn [bind]. rewrite O1. reflexivity. }
  destruct G as [out [G1 [G2 G3]]]. rewrite G1. cbn [pbind]. rewrite LS.
  destruct (dropped_length ps 0) as [D1 [D2 D3]].
  destruct (Nat.eqb_spec (length (dropped_axes 0 ps)) (length ps)) as [Q|Q].
  - apply D2 in Q. destruct (all_dropped_count IN Q) as [Q1 Q2]. rewrite Q2 in G2.
    destruct out as [|c out]; [rewrite lenN_nil in G2; lia|]. exists (PyScalar c). split; [reflexivity|]. split; [exact Q|].
    destruct (@expand_spec _ _ IN [] ltac:(rewrite Q1; constructor)) as [I1 [I2 I3]].
    destruct (G3 _ I1) as [c' [C1 C2]]. rewrite I2, Q1 in C1. cbn in C1. inversion C1; subst c'.
    rewrite I3 in C2. assert (PF : np_position ps [] = np_first ps).
    { clear. unfold np_first. induction ps as [|[f k [|]] ps IH]; cbn [np_position map p_first]; congruence. }
    now rewrite PF in C2.
  - assert (EX : Exists (fun p => p_dropped p = false) ps) by (apply some_kept; intros X; apply D2 in X; congruence).
    assert (NV : np_value d a ps (PyArray (np_shape ps) out)).
    { split; [exact EX|]. split; [reflexivity|]. split; [now rewrite (shape_prod IN)|]. intros j J.
      destruct (expand_spec IN J) as [I1 [I2 I3]]. rewrite <- I2, <- I3. now apply G3. }
    destruct (dropped_axes 0 ps) eqn:DA.
    + rewrite <- (none_dropped_shape (proj1 D3 eq_refl)). eexists. split; [reflexivity|exact NV].
    + rewrite <- DA, (squeeze_ok IN). cbn [pbind]. eexists. split; [reflexivity|exact NV].
Qed.

Theorem getitem_spec p st a ix ps fresh : py_dataset_ok p -> stores p st a ->
  np_select (d_shape (pd_base p)) ix = Some ps -> regular_index (d_shape (pd_base p)) ix ->
  small_request (d_chunks (pd_base p)) (np_count ps) -> prod (np_count ps) < W64 ->
  (forall n, lenN (fresh n) = n) ->
  exists v, py_getitem p fresh ix st = PyOk v /\ np_value (pd_base p) a ps v.
Proof.
  intros K S SEL REG SM W FR.
  destruct (roi_spec (d_shape (pd_base p)) ix) as [_ [RS _]]. destruct (RS ps SEL REG) as [rb [zn [E BOX]]].
  eapply getitem_box; eauto. exact (select_inside SEL).
Qed.

(** * Writing *)

Lemma source_scalar n c i : source_value (FromScalar c) i = value_at n (PyScalar c) i.
Proof. reflexivity. Qed.

Lemma accepted_prod n m : accepted n m -> prod n = prod m.
Proof.
  intros [->|[[_ [E ->]]|[[_ H]|H]]]; [reflexivity|rewrite E, prod_ones; reflexivity|now apply core_prod|].
  destruct H as [c [a [b [l [r [_ [_ [_ [_ [_ [_ [_ P]]]]]]]]]]]]. exact P.
Qed.

Lemma write_view_spec p st a off n data zs : py_dataset_ok p -> can_write (d_mode (pd_base p)) = true ->
  stores p st a -> region_ok (pd_base p) off n -> prod n < W64 ->
  buffer_of (t_width (d_type (pd_base p))) (prod n) data -> zs = map Some (map Z.of_N off) ->
  exists st', py_write_view p n data zs st = (st', PyOk tt) /\
    stores p st' (np_assign off n (fun i => cell_at data (rowmajor n i)) a).
Proof.
  intros K WR S R W B ->. assert (OK := ok_base p K).
  destruct (@stores_write p st a off n (FromView (make_view n) data) K WR S R (c_source_ok W B)
              (fun i => cell_at data (rowmajor n i))) as [st' [E S']].
  { intros i I. cbn [source_value]. now rewrite (c_view_addr W I). }
  exists st'. split; [|exact S']. unfold py_write_view.
  assert (L : length off = length n) by (destruct R as [R _]; unfold valid_region in R; apply all3_length in R; lia).
  rewrite to_sizes_ok.
  - rewrite take_sizes_ok by exact L. rewrite E. reflexivity.
  - destruct R as [R _]. assert (D := dims_small (proj2 (do_dims OK))). unfold valid_region in R.
    clear -R D. revert off n R. induction D as [|x sh X D IH]; intros [|o off] [|k n] R; cbn in R; try contradiction; constructor.
    + lia.
    + eapply IH, R.
Qed.

Lemma count_small ps sh : inside sh ps -> Forall (fun n => 0 < n) (np_count ps) -> Forall (fun n => n < W64) sh ->
  Forall (fun n => n < W64) (np_count ps).
Proof.
  unfold np_count. induction 1 as [|n p sh ps [A _] H IH]; intros F S; cbn [map] in *; [constructor|].
  inversion F; inversion S; subst. constructor; [lia|now apply IH].
Qed.

Lemma empty_assign first count f a : existsb (N.eqb 0) count = true -> forall x, np_assign first count f a x = a x.
Proof.
  intros Z x. unfold np_assign. destruct (in_boxb first count x) eqn:B; [|reflexivity].
  apply box_sub, rowmajor_lt in B. rewrite (has_zero Z) in B. lia.
Qed.

Lemma setitem_box p st a ix ps rb zn v : py_dataset_ok p -> can_write (d_mode (pd_base p)) = true -> stores p st a ->
  index_to_roi ix (map Z.of_N (d_shape (pd_base p))) = PyOk (rb, zn, dropped_axes 0 ps) ->
  same_box ps rb zn -> inside (d_shape (pd_base p)) ps ->
  small_request (d_chunks (pd_base p)) (np_count ps) ->
  value_ok (pd_base p) v ->
  (existsb (N.eqb 0) (np_count ps) = true -> py_setitem p ix v st = (st, PyOk tt)) /\
  (existsb (N.eqb 0) (np_count ps) = false ->
     (match v with PyScalar _ => True | PyArray n _ => accepted n (np_count ps) end ->
      exists st', py_setitem p ix v st = (st', PyOk tt) /\
        stores p st' (np_assign (np_first ps) (np_count ps) (value_at (np_count ps) v) a)) /\
     (match v with PyScalar _ => False | PyArray n _ => ~ accepted n (np_count ps) end ->
      py_setitem p ix v st = (st, PyRaise ValueError))).
Proof.
  intros K WR S E BOX IN SM V. assert (OK := ok_base p K). set (d := pd_base p) in *.
  unfold py_setitem. fold d. rewrite E. assert (ZN := proj1 BOX). rewrite ZN, zero_Z.
  split; [intros ->; reflexivity|]. intros Z. rewrite Z.
  apply no_zero in Z.
  assert (R : region_ok d (np_first ps) (np_count ps)) by (split; [now apply inside_region|exact SM]).
  assert (D := dims_small (proj2 (do_dims OK))).
  split.
  - destruct v as [c|n data]; intros A.
    + destruct (@stores_write p st a (np_first ps) (np_count ps) (FromScalar c) K WR S R V
                    (value_at (np_count ps) (PyScalar c)) (fun _ _ => eq_refl)) as [st' [E' S']].
      exists st'. split; [|exact S']. unfold py_write_scalar. rewrite (box_begin IN Z BOX).
      rewrite to_sizes_ok by (eapply first_small; eauto). rewrite to_sizes_ok by (eapply count_small; eauto).
      fold d. assert (LL := all2_len IN).
      rewrite !take_sizes_ok by (unfold np_first, np_count; rewrite map_length; lia). rewrite E'. reflexivity.
    + destruct V as [W B]. rewrite map_id_N. assert (RO := proj2 (rectify_exact n (np_count ps)) A). rewrite RO.
      rewrite (accepted_prod A) in W, B.
      destruct (@write_view_spec p st a (np_first ps) (np_count ps) data rb K WR S R W B) as [st' [E' S']].
      { exact (box_begin IN Z BOX). }
      exists st'. now split.
  - destruct v as [c|n data]; [contradiction|]. intros NA. rewrite map_id_N.
    destruct (rectify_cases n (np_count ps)) as [X|X]; [apply rectify_exact in X; contradiction|]. now rewrite X.
Qed.

Theorem op_spec p o st a : py_dataset_ok p -> can_write (d_mode (pd_base p)) = true -> py_op_ok (pd_base p) o ->
  stores p st a -> exists st', run_py_op p o st = (st', PyOk tt) /\ stores p st' (py_apply (pd_base p) o a).
Proof.
  intros K WR O S. assert (OK := ok_base p K). set (d := pd_base p) in *.
  destruct o as [ix v|start n data|ids data]; cbn [py_op_ok run_py_op py_apply] in *.
  - destruct O as [ps [SEL [REG [SM V]]]]. rewrite SEL.
    destruct (roi_spec (d_shape d) ix) as [_ [RS _]]. destruct (RS ps SEL REG) as [rb [zn [E BOX]]].
    destruct (@setitem_box p st a ix ps rb zn v K WR S E BOX (select_inside SEL) SM) as [G1 G2].
    { destruct v; cbn [value_ok]; tauto. }
    destruct (existsb (N.eqb 0) (np_count ps)) eqn:Z.
    + exists st. split; [now apply G1|]. eapply stores_ext; [|exact S]. intros x _. symmetry. now apply empty_assign.
    + destruct (G2 eq_refl) as [G3 _]. apply G3. destruct v; tauto.
  - destruct O as [off [-> [R [W B]]]]. rewrite map_id_N.
    destruct (@write_view_spec p st a off n data _ K WR S R W B eq_refl) as [st' [E' S']]. exists st'. now split.
  - destruct O as [c [-> [V B]]]. destruct (@stores_chunk p st a c data K WR S V B) as [st' [E' S']].
    exists st'. split; [|exact S']. unfold py_write_chunk. fold d. rewrite andb_false_r.
    assert (VB : Forall (fun n => n < W64) c).
    { exact (valid_small (proj2 (do_dims OK)) V). }
    rewrite to_sizes_ok by exact VB. unfold sbind, pure.
    assert (EX : (if d_zarr d then Ok (prodw (d_chunks d)) else get_chunk_size d c) = Ok (prod (stored_shape d c))).
    { unfold stored_shape. destruct (stored_props OK V) as [P1 [P2 [P3 [P4 _]]]]. unfold stored_shape in P4.
      destruct (d_zarr d).
      - now rewrite prodw_small.
      - unfold get_chunk_size. rewrite (handle_ok OK V). cbn [bind ch_bounded]. now rewrite prodw_small. }
    rewrite EX. cbn [bind]. rewrite (proj1 B), N.eqb_refl. rewrite E'. reflexivity.
Qed.

Theorem ops_spec p ops : py_dataset_ok p -> can_write (d_mode (pd_base p)) = true -> Forall (py_op_ok (pd_base p)) ops ->
  forall st a, stores p st a -> exists st', run_py_ops p ops st = (st', PyOk tt) /\ stores p st' (py_applies (pd_base p) ops a).
Proof.
  intros K W F. induction F as [|o ops O F IH]; intros st a S; cbn [run_py_ops py_applies]; [now exists st|].
  destruct (@op_spec p o st a K W O S) as [st1 [E1 S1]]. rewrite E1. now apply IH.
Qed.

(** * Arbitrary indices *)

Lemma roi_any sh ix : let r := index_to_roi ix (map Z.of_N sh) in
  raises r \/
  exists ps rb zn, r = PyOk (rb, zn, dropped_axes 0 ps) /\ inside sh ps /\ length rb = length sh /\ length zn = length sh /\
    (same_box ps rb zn \/ existsb (fun z => (z <? 0)%Z) zn = false /\
       (existsb (Z.eqb 0) zn = true \/ exists k, (0 < k)%Z /\ In (Some (- k)%Z) rb)).
Proof.
  intros r. destruct (normalize_gen false sh ix) as [A [B C]]. unfold r, index_to_roi.
  destruct (np_select sh ix) as [ps|] eqn:SEL.
  - destruct (B ps eq_refl ltac:(discriminate)) as [ss [sq [-> [F ->]]]]. cbn [pbind]. right.
    pose proof (select_inside SEL) as IN. assert (L1 := all2_len IN). assert (L2 := all2_len F).
    eexists ps, _, _. split; [reflexivity|]. split; [exact IN|]. split; [exact (eq_trans (map_length _ _) (eq_trans L2 (eq_sym L1)))|].
    split; [exact (eq_trans (map_length _ _) (eq_trans L2 (eq_sym L1)))|].
    clear A B C SEL IN L1 L2.
    assert (G : Forall2 agrees ss ps \/
      existsb (fun z => (z <? 0)%Z) (map (fun p : pslice => match fst p with None => 0%Z | Some a => (snd p - a)%Z end) ss) = false /\
      (existsb (Z.eqb 0) (map (fun p : pslice => match fst p with None => 0%Z | Some a => (snd p - a)%Z end) ss) = true \/
       exists k, (0 < k)%Z /\ In (Some (- k)%Z) (map fst ss))).
    { assert (NN : existsb (fun z => (z <? 0)%Z) (map (fun p : pslice => match fst p with None => 0%Z | Some a => (snd p - a)%Z end) ss) = false).
      { induction F as [|s p ss ps P F IH]; [reflexivity|]. cbn [map existsb]. rewrite IH, orb_false_r.
        destruct P as [[P _]|[_ [->|[k [_ ->]]]]]; cbn [fst snd] in *; lia. }
      rewrite NN. clear NN. induction F as [|s p ss ps P F IH]; [left; constructor|]. cbn [map existsb In].
      destruct P as [P|[_ [->|[k [KP ->]]]]].
      - destruct IH as [IH|[_ [IH|[k [KP IH]]]]]; [left; now constructor| |].
        + right. split; [reflexivity|]. left. rewrite IH. apply orb_true_r.
        + right. split; [reflexivity|]. right. exists k. split; [exact KP|now right].
      - right. split; [reflexivity|]. now left.
      - right. split; [reflexivity|]. right. exists k. split; [exact KP|now left]. }
    destruct G as [G|G]; [left|right; exact G]. apply (@selects_box ss (dropped_axes 0 ps) ps). split; [|reflexivity].
    clear -G. induction G; constructor; [now left|assumption].
  - left. destruct (A eq_refl) as [e ->]. now eexists.
Qed.

Lemma to_sizes_cases l : (exists n, to_sizes l = PyOk n /\ length n = length l) \/ to_sizes l = PyRaise TypeError.
Proof.
  induction l as [|x l IH]; cbn [to_sizes]; [left; now exists []|].
  destruct (to_size x); [|now right]. destruct IH as [[m [-> L]]| ->]; [left|now right].
  cbn [pbind]. exists (n :: m). split; [reflexivity|]. cbn. lia.
Qed.
Lemma to_sizes_neg l k : (0 < k)%Z -> In (Some (- k)%Z) l -> to_sizes l = PyRaise TypeError.
Proof.
  intros P. induction l as [|x l IH]; intros I; [contradiction|]. cbn [to_sizes]. destruct I as [->|I].
  - cbn [to_size]. destruct ((0 <=? - k)%Z && _) eqn:E; [lia|reflexivity].
  - destruct (to_size x); [|reflexivity]. rewrite (IH I). reflexivity.
Qed.
Lemma squeeze_safe axes n : forall k, np_squeeze k axes n <> PyUB.
Proof.
  induction n as [|x n IH]; intros k; cbn [np_squeeze]; [discriminate|]. specialize (IH (S k)).
  destruct (existsb _ _); [destruct (x =? 1); [exact IH|discriminate]|]. destruct (np_squeeze (S k) axes n); cbn [pbind]; congruence.
Qed.

Lemma inside_small b sh ps : inside sh ps -> all2 (fun b n => b <= 2 ^ 31 /\ n <= 2 ^ 31) b sh -> small_request b (np_count ps).
Proof.
  unfold small_request, np_count. intros H. revert b. induction H as [|n p sh ps [A _] H IH]; intros [|x b] M; cbn in *; try tauto.
  destruct M as [M1 M2]. split; [|now apply IH]. lia.
Qed.
Lemma inside_prod sh ps : inside sh ps -> prod (np_count ps) <= prod sh \/ prod (np_count ps) = 0.
Proof.
  unfold np_count. induction 1 as [|n p sh ps [A _] H IH]; cbn [map prod]; [lia|].
  destruct (N.eq_dec (p_count p) 0) as [->|]; [lia|]. destruct IH as [IH|IH]; [left; nia|right; nia].
Qed.

Theorem getitem_safe p st a ix fresh : py_dataset_ok p -> stores p st a -> moderate (pd_base p) ->
  (forall n, lenN (fresh n) = n) -> py_getitem p fresh ix st <> PyUB.
Proof.
  intros K S [M1 M2] FR. destruct (roi_any (d_shape (pd_base p)) ix) as [[e E]|[ps [rb [zn [E [IN [LB [LZ C]]]]]]]].
  - unfold py_getitem. rewrite E. discriminate.
  - destruct C as [BOX|[NN C]].
    + destruct (@getitem_box p st a ix ps fresh rb zn K S E BOX IN) as [v [-> _]]; try assumption; try discriminate.
      * eapply inside_small; eauto.
      * destruct (inside_prod IN); lia.
    + unfold py_getitem. rewrite E. cbn [pbind]. rewrite NN. cbn zeta.
      assert (Z0 : existsb (Z.eqb 0) zn = true -> existsb (N.eqb 0) (map Z.to_N zn) = true).
      { clear. induction zn as [|z zn IH]; cbn [existsb map]; [discriminate|]. intros H. apply orb_true_iff in H.
        destruct H as [H|H]; [apply Z.eqb_eq in H; subst; reflexivity|rewrite (IH H); apply orb_true_r]. }
      assert (TAIL : forall out, (if Nat.eqb (length (dropped_axes 0 ps)) (length (map Z.to_N zn))
          then match out with [] => PyRaise IndexError | c :: _ => PyOk (PyScalar c) end
          else match dropped_axes 0 ps with
               | [] => PyOk (PyArray (map Z.to_N zn) out)
               | _ => pbind (np_squeeze 0 (dropped_axes 0 ps) (map Z.to_N zn)) (fun n' => PyOk (PyArray n' out))
               end) <> PyUB).
      { intros out. destruct (Nat.eqb _ _); [destruct out; discriminate|]. destruct (dropped_axes 0 ps) eqn:D; [discriminate|].
        rewrite <- D. assert (X := @squeeze_safe (dropped_axes 0 ps) (map Z.to_N zn) 0%nat).
        destruct (np_squeeze 0 (dropped_axes 0 ps) (map Z.to_N zn)); cbn [pbind]; congruence. }
      destruct (existsb (N.eqb 0) (map Z.to_N zn)) eqn:Z.
      * cbn [pbind]. apply TAIL.
      * destruct C as [C|[k [KP C]]]; [discriminate (Z0 C)|].
        unfold py_read_view. rewrite (to_sizes_neg KP C). discriminate.
Qed.

Theorem setitem_safe p st a ix v : py_dataset_ok p -> can_write (d_mode (pd_base p)) = true -> stores p st a -> moderate (pd_base p) ->
  value_ok (pd_base p) v ->
  (exists st' a', py_setitem p ix v st = (st', PyOk tt) /\ stores p st' a') \/
  exists e, py_setitem p ix v st = (st, PyRaise e).
Proof.
  intros K W S [M1 M2] V. destruct (roi_any (d_shape (pd_base p)) ix) as [[e E]|[ps [rb [zn [E [IN [LB [LZ C]]]]]]]].
  - unfold py_setitem. rewrite E. right. now eexists.
  - destruct C as [BOX|[NN C]].
    + destruct (@setitem_box p st a ix ps rb zn v K W S E BOX IN) as [G1 G2]; try assumption.
      { eapply inside_small; eauto. }
      destruct (existsb (N.eqb 0) (np_count ps)).
      * left. exists st, a. split; [now apply G1|exact S].
      * destruct (G2 eq_refl) as [G3 G4]. destruct v as [c|n data].
        -- left. destruct (G3 Logic.I) as [st' [E' S']]. eexists st', _. split; [exact E'|exact S'].
        -- destruct (rectify_cases n (np_count ps)) as [X|X].
           ++ left. apply rectify_exact in X. destruct (G3 X) as [st' [E' S']]. eexists st', _. split; [exact E'|exact S'].
           ++ right. eexists. apply G4. intros Y. apply rectify_exact in Y. congruence.
    + unfold py_setitem. rewrite E. destruct (existsb (Z.eqb 0) zn) eqn:Z; [left; now exists st, a|].
      destruct C as [C|[k [KP C]]]; [congruence|]. right. destruct v as [c|n data].
      * unfold py_write_scalar. rewrite (to_sizes_neg KP C). now eexists.
      * destruct (rectify_cases n (map Z.to_N zn)) as [->| ->]; [|now eexists].
        unfold py_write_view. rewrite (to_sizes_neg KP C). now eexists.
Qed.

Theorem setitem_rejects p ix ps n data st : np_select (d_shape (pd_base p)) ix = Some ps ->
  regular_index (d_shape (pd_base p)) ix -> Forall (fun k => 0 < k) (np_count ps) -> ~ accepted n (np_count ps) ->
  py_setitem p ix (PyArray n data) st = (st, PyRaise ValueError).
Proof.
  intros SEL REG Z NA. destruct (roi_spec (d_shape (pd_base p)) ix) as [_ [RS _]].
  destruct (RS ps SEL REG) as [rb [zn [E BOX]]]. unfold py_setitem. rewrite E, (proj1 BOX), zero_Z, map_id_N.
  assert (NZ : existsb (N.eqb 0) (np_count ps) = false).
  { clear -Z. induction Z as [|k l P Z IH]; [reflexivity|]. cbn [existsb]. rewrite IH, orb_false_r.
    destruct (N.eqb_spec 0 k); [lia|reflexivity]. }
  rewrite NZ. destruct (rectify_cases n (np_count ps)) as [X|X]; [apply rectify_exact in X; contradiction|]. now rewrite X.
Qed.

Theorem sets_safe p l : py_dataset_ok p -> can_write (d_mode (pd_base p)) = true -> moderate (pd_base p) ->
  Forall (fun k => value_ok (pd_base p) (snd k)) l ->
  forall st a, stores p st a -> exists a' st' rs, run_sets p l st = (st', rs) /\ stores p st' a' /\
    Forall (fun r => r <> PyUB) rs.
Proof.
  intros K W M F. induction F as [|[ix v] l V F IH]; intros st a S; cbn [run_sets].
  - now exists a, st, [].
  - destruct (@setitem_safe p st a ix v K W S M V) as [[st1 [a1 [-> S1]]]|[e ->]].
    + destruct (IH st1 a1 S1) as [a' [st' [rs [-> [S' R]]]]]. exists a', st', (PyOk tt :: rs).
      split; [reflexivity|]. split; [exact S'|]. constructor; [discriminate|exact R].
    + destruct (IH st a S) as [a' [st' [rs [-> [S' R]]]]]. exists a', st', (PyRaise e :: rs).
      split; [reflexivity|]. split; [exact S'|]. constructor; [discriminate|exact R].
Qed.

Theorem history_theorem p ops st : py_dataset_ok p -> can_write (d_mode (pd_base p)) = true ->
  Forall (py_op_ok (pd_base p)) ops -> new_dataset p st ->
  exists st', run_py_ops p ops st = (st', PyOk tt) /\
    forall ix ps fresh, np_select (d_shape (pd_base p)) ix = Some ps -> regular_index (d_shape (pd_base p)) ix ->
      small_request (d_chunks (pd_base p)) (np_count ps) -> prod (np_count ps) < W64 -> (forall n, lenN (fresh n) = n) ->
      exists v, py_getitem p fresh ix st' = PyOk v /\
        np_value (pd_base p) (py_applies (pd_base p) ops (fun _ => d_fill (pd_base p))) ps v.
Proof.
  intros K W O N. destruct (@ops_spec p ops K W O st _ (stores_new K N)) as [st' [E S]]. exists st'. split; [exact E|].
  intros. eapply getitem_spec; eauto.
Qed.

Theorem safe_theorem p l st : py_dataset_ok p -> can_write (d_mode (pd_base p)) = true -> moderate (pd_base p) ->
  Forall (fun k => value_ok (pd_base p) (snd k)) l -> new_dataset p st ->
  let (st', rs) := run_sets p l st in
  Forall (fun r => r <> PyUB) rs /\
  (forall ix v, value_ok (pd_base p) v ->
     let (st2, r) := py_setitem p ix v st' in r <> PyUB /\ forall e, r = PyRaise e -> st2 = st') /\
  forall ix fresh, (forall n, lenN (fresh n) = n) -> py_getitem p fresh ix st' <> PyUB.
Proof.
  intros K W M F N. destruct (@sets_safe p l K W M F st _ (stores_new K N)) as [a' [st' [rs [-> [S R]]]]].
  split; [exact R|]. split; [|intros; eapply getitem_safe; eauto].
  intros ix v V. destruct (@setitem_safe p st' a' ix v K W S M V) as [[st2 [a2 [-> _]]]|[e ->]];
    (split; [discriminate|]); [discriminate|reflexivity].
Qed.
