(** Histories of requests on plain datasets, scalar writes, read-only handles. *)
From Verif Require Import M_Base M_Text M_Key M_Blocking M_View M_Bytes M_N5Header M_Format M_Mode M_Dataset M_Access
  S_Array S_Grid S_Bytes S_Text S_Format S_Dataset S_Access
  P_Base P_Blocking P_Roi P_View P_Bytes P_Key P_Format P_Dataset P_Access P_Read.
Import List ListNotations.
Local Open Scope list_scope.
Local Open Scope N_scope.

Lemma foldS_ext {A B} (f g : B -> A -> action B) l :
  (forall x, In x l -> forall acc st, f acc x st = g acc x st) ->
  forall acc st, foldS f l acc st = foldS g l acc st.
Proof.
  induction l as [|x l IH]; intros H acc st; [reflexivity|]. cbn [foldS]. unfold sbind.
  rewrite H by (cbn; auto). destruct (g acc x st) as [st' [a| |]]; auto. apply IH. intros; apply H; cbn; auto.
Qed.
Lemma foldM_ext {A B} (f g : B -> A -> outcome B) l :
  (forall x, In x l -> forall acc, f acc x = g acc x) -> forall acc, foldM f l acc = foldM g l acc.
Proof.
  induction l as [|x l IH]; intros H acc; [reflexivity|]. cbn [foldM].
  rewrite H by (cbn; auto). destruct (g acc x); cbn [bind]; auto. apply IH. intros; apply H; cbn; auto.
Qed.
Lemma writes_ext {V} addr (f g : shape -> outcome V) cs : (forall c, In c cs -> f c = g c) ->
  forall dst, writes addr f cs dst = writes addr g cs dst.
Proof.
  induction cs as [|c cs IH]; intros H dst; [reflexivity|]. unfold writes in *. cbn [foldM].
  rewrite H by (cbn; auto). destruct (g c); cbn [bind]; auto.
  match goal with |- bind ?a _ = _ => destruct a end; cbn [bind]; auto; apply IH; intros; apply H; cbn; auto.
Qed.

Lemma fill_request_const n src x buf dest oreq rsh : const_source n src x ->
  sub_of n oreq rsh -> v_shape dest = rsh -> length (v_strides dest) = length rsh ->
  fill_request src buf dest oreq rsh = fill_request (FromScalar x) buf dest oreq rsh.
Proof.
  intros Hc Hs E L. destruct src as [v data|y]; cbn in Hc; [|now subst]. destruct Hc as (H1 & H2 & H3).
  destruct (sub_length Hs) as [L1 L2]. cbn [fill_request].
  rewrite copy_view_writes by (cbn; rewrite ?E; lia). rewrite fill_view_writes by (rewrite E; lia).
  apply writes_ext. intros c Hin. apply coords_In in Hin. rewrite E in Hin. cbn.
  rewrite flat_offset_lin. rewrite <- H3 with (i := vadd oreq c) by now apply (sub_in_shape Hs).
  f_equal. rewrite lin_vadd; [lia|]. pose proof (in_shape_len Hin). lia.
Qed.

Section WithDataset.
Variable d : dataset.
Hypothesis ok : dataset_ok d.
Notation w := (t_width (d_type d)).
Notation s := (d_shape d).
Notation b := (d_chunks d).
Notation valid := (valid_chunk (d_shape d) (d_chunks d)).

(** ** Integer types *)
Lemma apply_ops_cells ops : Forall (array_op_ok d) ops -> forall a,
  (forall x, in_shape s x -> lenN (a x) = w /\ Forall is_byte (a x)) ->
  forall x, in_shape s x -> lenN (apply_ops d ops a x) = w /\ Forall is_byte (apply_ops d ops a x).
Proof.
  induction 1 as [|o ops Ho Hops IH]; intros a Ha x Hx; [now apply Ha|]. cbn [apply_ops]. apply IH; [|exact Hx].
  clear x Hx. intros x Hx. destruct o as [off n src|c data|c]; cbn [apply_op array_op_ok] in *.
  - destruct (in_boxb off n x) eqn:E; [|now apply Ha]. apply in_boxb_spec in E.
    destruct (in_box_sub E) as (i & Hi & ->). destruct Ho as [[Hr _] Hs].
    destruct (in_box_length E) as [L1 L2]. rewrite vsub_vadd.
    + eapply source_value_ok; eauto.
    + pose proof (in_shape_len Hi). unfold valid_region in Hr. apply all3_length in Hr. lia.
  - destruct (list_eq_dec N.eq_dec (chunk_of b x) c) as [E|]; [|now apply Ha]. destruct Ho as [Hc Hd].
    eapply buffer_cell; [exact Hd|]. apply rowmajor_lt. rewrite <- E. now apply elem_stored.
  - destruct (list_eq_dec N.eq_dec (chunk_of b x) c) as [E|]; [apply (do_fill ok)|now apply Ha].
Qed.

Lemma same_value_int u v : t_float (d_type d) = false -> same_value d u v ->
  lenN u = w -> lenN v = w -> Forall is_byte u -> Forall is_byte v -> u = v.
Proof.
  intros Hf [H|[A B]] Lu Lv Bu Bv; [exact H|]. destruct (do_fill ok) as [F1 F2].
  apply int_eq_exact in A; auto. apply int_eq_exact in B; auto. congruence.
Qed.

Lemma val_cell st C x : holds d st C -> in_shape s x ->
  lenN (val d C x) = w /\ Forall is_byte (val d C x).
Proof.
  intros HC Hx. destruct (elem_chunk ok Hx) as (Hv & _). unfold val.
  apply (chunk_val_ok ok); auto; [|now apply elem_stored].
  apply (holds_existing ok HC Hv).
Qed.

(** Sub-array I/O of plain datasets refines an n-dimensional array. *)
Theorem array_theorem ops st : can_write (d_mode d) = true -> Forall (array_op_ok d) ops ->
  (forall c, valid c -> st (chunk_key (d_key d) c) = None) ->
  exists st', run_array_ops d ops st = (st', Ok tt) /\
    (forall ov off out, region_ok d off (v_shape ov) -> out_view_ok ov (lenN out) ->
      exists out', read_subarray d st' ov off out = Ok out' /\ lenN out' = lenN out /\
        (forall i, in_shape (v_shape ov) i -> exists v,
           getN out' (v_off ov + lin (v_strides ov) i) = Ok v /\
           same_value d v (apply_ops d ops (fun _ => d_fill d) (vadd off i)) /\
           (t_float (d_type d) = false -> v = apply_ops d ops (fun _ => d_fill d) (vadd off i))) /\
        (forall a, (forall i, in_shape (v_shape ov) i -> a <> v_off ov + lin (v_strides ov) i) ->
           getN out' a = getN out a)) /\
    (forall k, (forall c, valid c -> k <> chunk_key (d_key d) c) -> st' k = st k).
Proof.
  intros Hm Hops Hst.
  destruct (run_array_ops_spec ok Hm Hops (holds_empty Hst) (@represents_empty d)) as (st' & C' & E & HC & HR & F).
  exists st'. split; [exact E|]. split; [|exact F].
  intros ov off out Hreg Hov. destruct (read_subarray_spec ok Hreg HC Hov) as (out' & E2 & L & A & O).
  exists out'. split; [exact E2|]. split; [exact L|]. split; [|exact O].
  intros i Hi. exists (val d C' (vadd off i)). split; [now apply A|].
  assert (Hx : in_shape s (vadd off i)).
  { eapply region_in_shape; [apply Hreg|]. apply sub_in_box; [|exact Hi].
    destruct Hreg as [Hr _]. unfold valid_region in Hr; apply all3_length in Hr; lia. }
  split; [now apply HR|]. intros Hf. apply same_value_int; auto.
  - eapply val_cell; eauto.
  - apply apply_ops_cells; auto. intros; apply (do_fill ok).
  - eapply val_cell; eauto.
  - apply apply_ops_cells; auto. intros; apply (do_fill ok).
Qed.

(** ** Scalar writes *)
Lemma prepare_const off n c src x rd buf : region_ok d off n -> overlaps s b off n c ->
  const_source n src x ->
  prepare_chunk d off n c src rd buf = prepare_chunk d off n c (FromScalar x) rd buf.
Proof.
  intros Hreg Hov Hc. pose proof (overlaps_valid Hov) as Hv.
  destruct (coords_in_roi_exact (do_dims ok) (proj1 Hreg) (proj2 Hreg) Hov) as (r & Er & R).
  destruct (roi_facts ok Hreg Hv R) as (F1 & F2 & F3 & F4).
  unfold prepare_chunk. rewrite Er. cbn [bind]. rewrite chunk_shape_ok by auto. cbn [bind].
  set (pad := negb (prodw (chunk_extent s b c) =? prodw b) && d_zarr d).
  assert (LS : length (if pad then b else chunk_extent s b c) = length (r_shape r)).
  { destruct (sub_length F2) as [_ L]. destruct (stored_props ok Hv) as (_ & _ & _ & _ & _ & SL).
    destruct (extent_props ok Hv) as (_ & _ & _ & E4). destruct pad; lia. }
  destruct (r_complete r && negb pad) eqn:Ec.
  - apply andb_prop in Ec as [Ec Ep]. destruct pad; [discriminate|]. destruct (re_complete_box R Ec) as [B1 B2].
    apply (fill_request_const _ Hc F1); cbn; [now symmetry|]. rewrite c_strides_length. lia.
  - match goal with |- bind ?a _ = _ => destruct a as [e| |] end; cbn [bind]; auto.
    apply (fill_request_const _ Hc F1); cbn; [reflexivity|]. rewrite c_strides_length. lia.
Qed.

Theorem scalar_plain off n src x : region_ok d off n -> const_source n src x ->
  forall st, write_request d src off n st = write_request d (FromScalar x) off n st.
Proof.
  intros Hreg Hc st. destruct (begin_request_ok ok Hreg) as (l & E & _ & _ & HI).
  unfold write_request, write_plain, sbind, pure. rewrite E.
  rewrite (@foldS_ext _ _ (write_unit d src off n) (write_unit d (FromScalar x) off n) l); [reflexivity|].
  intros c Hin buf st'. unfold write_unit, sbind, reading. rewrite (prepare_const _ _ Hreg (proj1 (HI c) Hin) Hc). reflexivity.
Qed.

(** ** Read-only handles *)
Lemma ro_write_chunk ids data vl k st : can_write (d_mode d) = false ->
  write_chunk d ids data vl k st = (st, Throw EInvalidArgument).
Proof. intros H. unfold write_chunk. now rewrite H. Qed.

Lemma ro_remove ids st : can_write (d_mode d) = false ->
  fst (remove_chunk d ids st) = st /\ snd (remove_chunk d ids st) <> Ok tt.
Proof.
  intros H. unfold remove_chunk, sbind, pure. destruct (chunk_handle_of d b ids); cbn; try (split; congruence).
  rewrite H. cbn. split; congruence.
Qed.

Lemma ro_unit src off n c buf st : can_write (d_mode d) = false ->
  (exists e, write_unit d src off n buf c st = (st, Throw e)) \/ write_unit d src off n buf c st = (st, UB).
Proof.
  intros H. unfold write_unit, sbind, reading.
  destruct (prepare_chunk d off n c src (plain_existing d st c) buf) as [buf'| |]; eauto.
  rewrite ro_write_chunk by exact H. eauto.
Qed.
Lemma ro_fold src off n l buf st : can_write (d_mode d) = false ->
  fst (foldS (write_unit d src off n) l buf st) = st /\
  (l <> [] -> forall r, snd (foldS (write_unit d src off n) l buf st) <> Ok r).
Proof.
  intros H. destruct l as [|c l]; cbn [foldS]; [split; [reflexivity|intros Hx; congruence]|].
  unfold sbind. destruct (ro_unit src off n c buf st H) as [[e ->]| ->]; cbn; split; congruence.
Qed.

Lemma grid_nonempty fuel lo hi : lo <> [] -> make_grid fuel lo hi <> Some [].
Proof.
  intros H. destruct lo as [|x lo]; [congruence|]. unfold make_grid. destruct fuel as [|f]; cbn [grid_loop]; [congruence|].
  destruct (odo_next (x :: lo) hi (x :: lo)) as [p [|]]; [congruence|]. destruct (grid_loop f _ _ p); congruence.
Qed.
Lemma begin_nonempty off n l : begin_request d off n = Ok l -> l <> [].
Proof.
  unfold begin_request, check_request, chunk_requests, blocks_overlapping. intros E.
  destruct (N.eqb_spec (lenN off) (lenN s)) as [L|]; cbn [andb negb bind] in E; [|discriminate].
  destruct (lenN n =? lenN s); cbn [andb negb bind] in E; [|discriminate].
  destruct (check_axes s off n); cbn [bind] in E; [|discriminate].
  destruct (d_blocking d); cbn [bind] in E; try discriminate.
  destruct (make_grid _ _ _) as [l'|] eqn:Em; [|discriminate]. injection E as <-. intros ->.
  revert Em. apply grid_nonempty. destruct (do_dims ok) as [Hne Ha]. apply all2_length in Ha.
  destruct s; [congruence|]. destruct off; [discriminate|]. destruct b; [discriminate|]. discriminate.
Qed.

Theorem readonly_request src off n st : can_write (d_mode d) = false ->
  fst (write_request d src off n st) = st /\ snd (write_request d src off n st) <> Ok tt.
Proof.
  intros H. unfold write_request, write_plain, sbind, pure.
  destruct (begin_request d off n) as [l| |] eqn:E; [|split; cbn; congruence..].
  pose proof (begin_nonempty E) as NE.
  pose proof (@ro_fold src off n l (repeat (d_fill d) (N.to_nat (prodw b))) st H) as [F1 F2]. specialize (F2 NE).
  destruct (foldS _ _ _ _) as [st' [r| |]]; cbn in *; split; try congruence; auto.
Qed.
End WithDataset.

Theorem readonly_calls d calls st : dataset_ok d -> can_write (d_mode d) = false ->
  fst (run_caught (map (run_call d) calls) st) = st /\
  Forall (fun o => o <> Ok tt) (snd (run_caught (map (run_call d) calls) st)).
Proof.
  intros ok H. induction calls as [|c0 calls IH]; cbn [map run_caught]; [split; [reflexivity|constructor]|].
  assert (HC : exists o, run_call d c0 st = (st, o) /\ o <> Ok tt).
  { destruct c0 as [off n src|ids data vl k|ids]; cbn [run_call].
    - destruct (readonly_request ok src off n st H) as [F1 F2].
      destruct (write_request d src off n st) as [st' o]; cbn in *; subst; eauto.
    - rewrite ro_write_chunk by exact H. eexists. split; [reflexivity|congruence].
    - destruct (@ro_remove d ids st H) as [F1 F2].
      destruct (remove_chunk d ids st) as [st' o]; cbn in *; subst; eauto. }
  destruct HC as (o & -> & Ho). destruct (run_caught (map (run_call d) calls) st) as [st2 os].
  cbn in *. destruct IH as [-> IH]. split; [reflexivity|]. constructor; auto.
Qed.
