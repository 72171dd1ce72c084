(** Sub-array access of plain datasets refines an n-dimensional array. *)
From Verif Require Import M_Base M_Text M_Key M_Blocking M_View M_Bytes M_N5Header M_Format M_Mode M_Dataset M_Access
  S_Array S_Grid S_Bytes S_Text S_Format S_Dataset S_Access
  P_Base P_Blocking P_Roi P_View P_Bytes P_Key P_Format P_Dataset.
Import List ListNotations.
From Coq Require Import Sorted.
Local Open Scope list_scope.
Local Open Scope N_scope.

Lemma cell_at_getN data i : i < lenN data -> getN data i = Ok (cell_at data i).
Proof.
  intros H. destruct (getN_in H) as [a E]. rewrite E. f_equal. apply getN_ok in E.
  unfold cell_at. symmetry. now apply nth_error_nth.
Qed.
Lemma getN_cell_at data i a : getN data i = Ok a -> cell_at data i = a.
Proof. intros E. apply getN_ok in E. unfold cell_at. now apply nth_error_nth. Qed.

Lemma buffer_cell w n data i : buffer_of w n data -> i < n ->
  lenN (cell_at data i) = w /\ Forall is_byte (cell_at data i).
Proof.
  intros [L H] Hi. rewrite <- L in Hi. pose proof (cell_at_getN Hi) as E. apply getN_ok, nth_error_In in E.
  rewrite Forall_forall in H. now apply H.
Qed.

Lemma rowmajor_onto s i : i < prod s -> prod s < W64 -> exists p, in_shape s p /\ rowmajor s p = i.
Proof. intros H H2. destruct (id_to_coord_spec H H2) as (c & _ & H3 & H4). eauto. Qed.

(** Buffers are determined by their elements. *)
Lemma buffer_by_pos w s data : prod s < W64 -> lenN data = prod s ->
  (forall p, in_shape s p -> exists v, getN data (rowmajor s p) = Ok v /\ lenN v = w /\ Forall is_byte v) ->
  buffer_of w (prod s) data.
Proof.
  intros Hs L H. split; [exact L|]. rewrite Forall_forall. intros e He.
  apply In_nth_error in He as [n He].
  assert (Hn : (n < length data)%nat) by (apply nth_error_Some; congruence).
  destruct (@rowmajor_onto s (N.of_nat n)) as (p & P1 & P2); [unfold lenN in L; lia|exact Hs|].
  destruct (H p P1) as (v & E & Hv). rewrite P2 in E. apply getN_ok in E. rewrite Nnat.Nat2N.id in E.
  congruence.
Qed.

Lemma vadd_length a b : length a = length b -> length (vadd a b) = length a.
Proof. apply map2_length. Qed.
Lemma vsub_vadd a b : length a = length b -> vsub (vadd a b) a = b.
Proof.
  revert b. induction a as [|x a IH]; intros [|y b] H; try discriminate; [reflexivity|].
  cbn in *. unfold vsub, vadd in *. cbn. rewrite IH by lia. f_equal. lia.
Qed.
Lemma vadd_assoc a b c : vadd a (vadd b c) = vadd (vadd a b) c.
Proof.
  revert b c. induction a as [|x a IH]; intros [|y b] [|z c]; try reflexivity.
  unfold vadd in *. cbn. rewrite IH. f_equal. lia.
Qed.
Lemma all3_sub_of o e n : all3 (fun o e n => o + e <= n) o e n -> sub_of n o e.
Proof. exact (fun H => H). Qed.

Lemma prod_eq_all2 e : forall b, all2 (fun e b => e <= b) e b -> Forall (fun n => 0 < n) e ->
  prod e = prod b -> e = b.
Proof.
  induction e as [|x e IH]; intros [|y b] H P E; cbn in *; try tauto.
  inversion P as [|? ? P1 P2]; subst. destruct H as [Ha H2].
  assert (prod e <= prod b).
  { clear -H2. revert b H2. induction e as [|u e IH]; intros [|v b] H; cbn in *; try tauto; [lia|].
    destruct H as [H1 H2]. specialize (IH _ H2). nia. }
  assert (0 < prod e) by now apply prod_pos.
  assert (x = y) by nia. subst. f_equal. apply IH; auto. nia.
Qed.

Lemma zeros_flat st (l : shape) : flat_offset (map (fun _ => 0) l) st = 0.
Proof. revert st. induction l as [|x l IH]; intros [|y st]; cbn; try reflexivity. rewrite IH. lia. Qed.
Lemma make_view_subview s (l : shape) : make_view s = subview (make_view s) (map (fun _ => 0) l) s.
Proof. unfold subview, make_view. cbn. now rewrite zeros_flat. Qed.
Lemma sub_of_zeros s (l : shape) : length l = length s -> sub_of s (map (fun _ => 0) l) s.
Proof.
  unfold sub_of. revert l. induction s as [|x s IH]; intros [|y l] H; try discriminate; cbn; auto.
  split; [lia|]. apply IH. cbn in H; lia.
Qed.

Lemma in_box_vadd_cancel c o n x : length c = length x -> length o = length x -> length n = length x ->
  in_box (vadd c o) n (vadd c x) <-> in_box o n x.
Proof.
  revert o n x. induction c as [|c0 c IH]; intros [|o0 o] [|n0 n] [|x0 x] H1 H2 H3; try discriminate; cbn in *.
  - split; constructor.
  - unfold vadd in *. cbn. split; intros H; inversion H; subst; constructor; try lia; apply IH in H10 || apply IH; auto; try lia.
Qed.

(** Filling a box of a C-contiguous buffer from a request's source. *)
Lemma fill_request_spec w n src buf s o sh oreq : source_ok w n src ->
  0 < prod s -> prod s < W64 -> lenN buf = prod s -> sub_of s o sh -> sub_of n oreq sh ->
  exists buf', fill_request src buf (subview (make_view s) o sh) oreq sh = Ok buf' /\ lenN buf' = prod s /\
    (forall i, in_shape sh i -> getN buf' (rowmajor s (vadd o i)) = Ok (source_value src (vadd oreq i))) /\
    (forall p, in_shape s p -> ~ in_box o sh p -> getN buf' (rowmajor s p) = getN buf (rowmajor s p)).
Proof.
  intros Hs P1 P2 L Ho Hn. destruct (sub_length Ho) as [L1 L2]. destruct (sub_length Hn) as [L3 L4].
  assert (V : forall i, in_shape sh i ->
     v_off (subview (make_view s) o sh) + lin (v_strides (subview (make_view s) o sh)) i = rowmajor s (vadd o i) /\
     rowmajor s (vadd o i) < prod s).
  { intros i Hi. destruct (subview_spec P1 P2 Ho Hi) as [E B]. rewrite E in B. auto. }
  assert (LS : length (v_strides (subview (make_view s) o sh)) = length (v_shape (subview (make_view s) o sh))).
  { cbn. rewrite c_strides_length. lia. }
  assert (OUT : forall (buf' : list cell),
    (forall a, (forall c, in_shape sh c -> a <> v_off (subview (make_view s) o sh) + lin (v_strides (subview (make_view s) o sh)) c) ->
       getN buf' a = getN buf a) ->
    forall p, in_shape s p -> ~ in_box o sh p -> getN buf' (rowmajor s p) = getN buf (rowmajor s p)).
  { intros buf' H p Hp Hb. apply H. intros c Hc E. rewrite (proj1 (V c Hc)) in E.
    apply rowmajor_inj in E; [|exact Hp|apply (sub_in_shape Ho Hc)]. subst p. apply Hb. apply sub_in_box; [lia|auto]. }
  destruct src as [v data|x]; cbn [fill_request source_value].
  - destruct Hs as (S1 & S2 & S3 & S4).
    assert (A : forall i, in_shape sh i ->
       v_off (subview v oreq sh) + lin (v_strides (subview v oreq sh)) i = v_off v + lin (v_strides v) (vadd oreq i)).
    { intros i Hi. cbn. rewrite flat_offset_lin, lin_vadd; [lia|]. apply in_shape_len in Hi. lia. }
    destruct (@copy_view_spec _ data buf (subview v oreq sh) (subview (make_view s) o sh)) as (buf' & E & L' & C1 & C2).
    + cbn. lia.
    + exact LS.
    + cbn [v_shape subview]. intros c Hc. rewrite A by auto. apply S3. now apply (sub_in_shape Hn).
    + cbn [v_shape subview]. intros c Hc. destruct (V c Hc) as [-> B]. lia.
    + cbn [v_shape subview]. intros c e Hc He. apply (subview_inj P1 P2 Ho Hc He).
    + exists buf'. split; [exact E|]. split; [lia|]. split.
      * intros i Hi. specialize (C1 i Hi). rewrite (proj1 (V i Hi)), A in C1 by auto. rewrite C1.
        apply cell_at_getN. apply S3. now apply (sub_in_shape Hn).
      * apply OUT, C2.
  - destruct (@fill_view_spec _ x buf (subview (make_view s) o sh)) as (buf' & E & L' & C1 & C2).
    + exact LS.
    + cbn [v_shape subview]. intros c Hc. destruct (V c Hc) as [-> B]. lia.
    + exists buf'. split; [exact E|]. split; [lia|]. split.
      * intros i Hi. rewrite <- (proj1 (V i Hi)). apply C1, Hi.
      * apply OUT, C2.
Qed.

Lemma resize_buffer w n buf : widths w buf -> (forall e, In e buf -> Forall is_byte e) ->
  buffer_of w n (resize w n buf).
Proof.
  intros H Hb. unfold resize. split.
  - unfold lenN. rewrite app_length, firstn_length, repeat_length. lia.
  - apply Forall_app. split.
    + apply Forall_firstn. unfold widths in H. rewrite Forall_forall in *. intros e He. split; [now apply H|now apply Hb].
    + apply Forall_forall. intros e He. apply repeat_spec in He. subst e. unfold zero_cell. split.
      * unfold lenN. rewrite repeat_length. lia.
      * apply Forall_forall. intros b Hb'. apply repeat_spec in Hb'. subst b. unfold is_byte. lia.
Qed.

Lemma in_shape_mono e : forall q bb, all2 (fun e b => e <= b) e bb -> in_shape e q -> in_shape bb q.
Proof.
  induction e as [|e0 e IH]; intros q [|b0 bb] E H; cbn in E; try tauto. 
  inversion H; subst. constructor; [lia|]. apply IH; tauto.
Qed.

Section WithDataset.
Variable d : dataset.
Hypothesis ok : dataset_ok d.
Notation w := (t_width (d_type d)).
Notation s := (d_shape d).
Notation b := (d_chunks d).
Notation valid := (valid_chunk (d_shape d) (d_chunks d)).

(** Chunk contents of the dataset. *)
Definition holds (st : store) (C : shape -> option (list cell)) : Prop :=
  forall c, valid c -> chunk_holds d st c (option_map (fun data => (false, data)) (C c)).

Definition chunk_val (o : option (list cell)) (sh p : shape) : cell :=
  match o with None => d_fill d | Some data => cell_at data (rowmajor sh p) end.

Definition val (C : shape -> option (list cell)) (x : shape) : cell :=
  chunk_val (C (chunk_of b x)) (stored_shape d (chunk_of b x)) (pos_of b x).

Definition existing_ok (rd : list cell -> outcome (bool * list cell)) (n : N) (o : option (list cell)) : Prop :=
  forall buf, buffer_of w n buf ->
    rd buf = match o with None => Ok (false, buf) | Some data => Ok (true, data) end.

Definition content_ok (c : shape) (o : option (list cell)) : Prop :=
  match o with None => True | Some data => buffer_of w (prod (stored_shape d c)) data end.

Definition any_buffer (buf : list cell) : Prop := exists n, buffer_of w n buf.

Lemma chunk_val_ok c o p : content_ok c o -> valid c -> in_shape (stored_shape d c) p ->
  lenN (chunk_val o (stored_shape d c) p) = w /\ Forall is_byte (chunk_val o (stored_shape d c) p).
Proof.
  intros Hc Hv Hp. destruct o as [data|]; cbn in *.
  - eapply buffer_cell; [exact Hc|]. now apply rowmajor_lt.
  - apply (do_fill ok).
Qed.

Lemma source_value_ok n src i : source_ok w n src -> in_shape n i ->
  lenN (source_value src i) = w /\ Forall is_byte (source_value src i).
Proof.
  destruct src as [v data|x]; cbn; [|tauto]. intros (_ & _ & H & HF) Hi.
  specialize (H _ Hi). pose proof (cell_at_getN H) as E. apply getN_ok, nth_error_In in E.
  rewrite Forall_forall in HF. now apply HF.
Qed.

Lemma sized_buffer n buf : any_buffer buf -> buffer_of w n (if n =? lenN buf then buf else resize w n buf).
Proof.
  intros [m Hm]. destruct (N.eqb_spec n (lenN buf)) as [->|].
  - destruct Hm as [L H]. split; auto.
  - apply resize_buffer; [eapply buffer_widths; eauto|]. destruct Hm as [_ H]. rewrite Forall_forall in H.
    intros e He. now apply H.
Qed.

Lemma chunk_shape_ok c : valid c -> get_chunk_shape d c = Ok (chunk_extent s b c).
Proof. intros H. unfold get_chunk_shape. rewrite handle_ok by auto. reflexivity. Qed.

Lemma extent_eq c : valid c -> d_zarr d = true ->
  prodw (chunk_extent s b c) = prodw b -> chunk_extent s b c = b.
Proof.
  intros Hc Hz E. destruct (extent_props ok Hc) as (E1 & E2 & E3 & E4).
  pose proof (prod_chunks_small ok). rewrite !prodw_small in E by lia. now apply prod_eq_all2.
Qed.

Lemma origin_length c : valid c -> length (chunk_origin b c) = length b.
Proof. intros Hc. destruct (valid_length Hc). unfold chunk_origin. rewrite map2_length; lia. Qed.

Lemma sub_extent_stored c o sh : valid c -> sub_of (chunk_extent s b c) o sh -> sub_of (stored_shape d c) o sh.
Proof.
  intros Hc H. unfold stored_shape. destruct (d_zarr d); [|exact H].
  destruct (extent_props ok Hc) as (_ & _ & E & _). unfold sub_of in *. revert E H.
  generalize (chunk_extent s b c) as e. generalize b as bb. clear.
  intros bb e. revert bb o sh. induction e as [|e0 e IH]; intros [|b0 bb] [|o0 o] [|s0 sh] E H; cbn in *; try tauto.
  split; [lia|]. apply IH; tauto.
Qed.

(** The buffer prepared for a chunk: request data inside the request, the old
    contents elsewhere. *)
Definition prepared (off n c : shape) (src : source) (old : option (list cell)) (buf : list cell) : Prop :=
  buffer_of w (prod (stored_shape d c)) buf /\
  forall p, in_shape (stored_shape d c) p ->
    getN buf (rowmajor (stored_shape d c) p) =
      Ok (let x := vadd (chunk_origin b c) p in
          if in_boxb off n x then source_value src (vsub x off)
          else chunk_val old (stored_shape d c) p).

Lemma in_stored_extent c p : valid c -> in_shape (stored_shape d c) p ->
  forall off n, valid_region s off n -> in_box off n (vadd (chunk_origin b c) p) ->
  in_chunk s b c (vadd (chunk_origin b c) p).
Proof.
  intros Hc Hp off n Hr Hb. unfold stored_shape in Hp.
  assert (Hp' : in_shape b p).
  { destruct (d_zarr d); [exact Hp|]. destruct (extent_props ok Hc) as (_ & _ & E & _).
    revert E Hp. generalize (chunk_extent s b c) as e. generalize b as bb. clear.
    intros bb e. revert bb p. induction e as [|e0 e IH]; intros [|b0 bb] p E Hp; cbn in *; try tauto.
    inversion Hp; subst. constructor; [lia|]. apply IH; tauto. }
  clear Hp. revert Hc Hr Hb Hp'. unfold chunk_origin, valid_chunk, valid_region, in_chunk, vadd.
  generalize s as ss, b as bb. intros ss bb. revert ss c p off n.
  induction bb as [|b0 bb IH]; intros [|s0 ss] [|c0 c] p [|o0 off] [|n0 n] Hc Hr Hb Hp; cbn in Hc, Hr; try tauto.
  inversion Hp; subst. destruct Hc as [Hc1 Hc2], Hr as [Hr1 Hr2]. cbn [map2] in Hb. cbn [map2 all4].
  inversion Hb; subst. split; [lia|]. eapply IH; eauto.
Qed.

Lemma roi_facts c off n r : region_ok d off n -> valid c ->
  roi_exact s b c off n (r_off_in_req r) (r_shape r) (r_off_in_chunk r) (r_complete r) ->
  sub_of n (r_off_in_req r) (r_shape r) /\
  sub_of (stored_shape d c) (r_off_in_chunk r) (r_shape r) /\
  (forall i, in_shape (r_shape r) i ->
     vadd (chunk_origin b c) (vadd (r_off_in_chunk r) i) = vadd off (vadd (r_off_in_req r) i)) /\
  (forall p, in_shape (stored_shape d c) p ->
     in_box (r_off_in_chunk r) (r_shape r) p <-> in_box off n (vadd (chunk_origin b c) p)).
Proof.
  intros [Hr Hs] Hc [R1 R2 R3 R4 R5 R6 R7].
  assert (S1 : sub_of n (r_off_in_req r) (r_shape r)) by exact R4.
  assert (S2 : sub_of (stored_shape d c) (r_off_in_chunk r) (r_shape r)) by (apply sub_extent_stored; auto).
  split; [exact S1|]. split; [exact S2|]. split.
  - intros i Hi. rewrite !vadd_assoc, R2. reflexivity.
  - intros p Hp. destruct (stored_props ok Hc) as (_ & _ & _ & _ & _ & SL).
    destruct (sub_length S2) as [L1 L2]. pose proof (in_shape_len Hp) as LP. pose proof (origin_length Hc) as LO.
    rewrite <- (@in_box_vadd_cancel (chunk_origin b c)) by lia. rewrite R2, R1. split; [tauto|].
    intros H. split; auto. eapply in_stored_extent; eauto.
Qed.

Lemma prepare_spec off n c src rd old buf : region_ok d off n -> source_ok w n src ->
  overlaps s b off n c -> any_buffer buf -> content_ok c old ->
  existing_ok rd (prod (stored_shape d c)) old ->
  exists buf', prepare_chunk d off n c src rd buf = Ok buf' /\ prepared off n c src old buf'.
Proof.
  intros Hreg Hsrc Hov Hbuf Hold Hrd. pose proof (overlaps_valid Hov) as Hc.
  destruct Hreg as [Hr Hs]. pose proof (conj Hr Hs : region_ok d off n) as Hreg.
  destruct (coords_in_roi_exact (do_dims ok) Hr Hs Hov) as (r & Er & R).
  destruct (roi_facts Hreg Hc R) as (F1 & F2 & F3 & F4).
  destruct (stored_props ok Hc) as (_ & SP & _ & SW & _ & SL).
  unfold prepare_chunk. rewrite Er. cbn [bind]. rewrite chunk_shape_ok by auto. cbn [bind].
  set (pad := negb (prodw (chunk_extent s b c) =? prodw b) && d_zarr d).
  assert (Hsh : (if pad then b else chunk_extent s b c) = stored_shape d c).
  { unfold pad, stored_shape. destruct (d_zarr d) eqn:Z; rewrite ?andb_false_r, ?andb_true_r; [|reflexivity].
    destruct (N.eqb_spec (prodw (chunk_extent s b c)) (prodw b)) as [E|]; cbn; [|reflexivity].
    now apply extent_eq. }
  assert (Hsz : (if pad then prodw b else prodw (chunk_extent s b c)) = prod (stored_shape d c)).
  { rewrite <- (prodw_small SW), <- Hsh. destruct pad; reflexivity. }
  rewrite Hsh, Hsz. pose proof (sized_buffer (prod (stored_shape d c)) Hbuf) as Hb1.
  set (buf1 := if prod (stored_shape d c) =? lenN buf then buf else resize w (prod (stored_shape d c)) buf) in *.
  assert (Hfinal : forall buf2 buf', buffer_of w (prod (stored_shape d c)) buf2 ->
    (forall p, in_shape (stored_shape d c) p -> ~ in_box (r_off_in_chunk r) (r_shape r) p ->
       getN buf2 (rowmajor (stored_shape d c) p) = Ok (chunk_val old (stored_shape d c) p)) ->
    lenN buf' = prod (stored_shape d c) ->
    (forall i, in_shape (r_shape r) i ->
      getN buf' (rowmajor (stored_shape d c) (vadd (r_off_in_chunk r) i)) = Ok (source_value src (vadd (r_off_in_req r) i))) ->
    (forall p, in_shape (stored_shape d c) p -> ~ in_box (r_off_in_chunk r) (r_shape r) p ->
      getN buf' (rowmajor (stored_shape d c) p) = getN buf2 (rowmajor (stored_shape d c) p)) ->
    prepared off n c src old buf').
  { intros buf2 buf' B2 O2 L' I O.
    assert (K : forall p, in_shape (stored_shape d c) p ->
      getN buf' (rowmajor (stored_shape d c) p) =
      Ok (let x := vadd (chunk_origin b c) p in
          if in_boxb off n x then source_value src (vsub x off)
          else chunk_val old (stored_shape d c) p)).
    { intros p Hp. cbn zeta. destruct (in_boxb off n (vadd (chunk_origin b c) p)) eqn:Eb.
      - apply in_boxb_spec in Eb. apply (F4 p Hp) in Eb. destruct (in_box_sub Eb) as (i & Hi & ->).
        rewrite I by auto. rewrite F3 by auto. rewrite vsub_vadd; [reflexivity|].
        destruct (sub_length F1) as [La Lb]. pose proof (in_shape_len Hi). rewrite vadd_length by lia.
        unfold valid_region in Hr. apply all3_length in Hr. lia.
      - rewrite O; auto.
        + apply O2; auto. intros H. apply F4 in H; auto. apply in_boxb_spec in H. congruence.
        + intros H. apply F4 in H; auto. apply in_boxb_spec in H. congruence. }
    split; [|exact K]. apply buffer_by_pos; auto.
    intros p Hp. rewrite K by auto. eexists. split; [reflexivity|]. cbn zeta.
    destruct (in_boxb off n (vadd (chunk_origin b c) p)) eqn:Eb.
    - apply in_boxb_spec in Eb. apply (F4 p Hp) in Eb. destruct (in_box_sub Eb) as (i & Hi & ->).
      rewrite F3 by auto. destruct (sub_length F1) as [La Lb]. pose proof (in_shape_len Hi).
      rewrite vsub_vadd. 2:{ rewrite vadd_length by lia. unfold valid_region in Hr. apply all3_length in Hr. lia. }
      apply (source_value_ok Hsrc). now apply (sub_in_shape F1).
    - now apply chunk_val_ok. }
  destruct (r_complete r && negb pad) eqn:Ecomp.
  - (* complete overlap *)
    apply andb_prop in Ecomp as [Ec Ep]. destruct (re_complete_box R Ec) as [B1 B2].
    assert (Hsame : stored_shape d c = r_shape r) by (rewrite B1, <- Hsh; destruct pad; [discriminate|reflexivity]).
    assert (Hz0 : r_off_in_chunk r = map (fun _ => 0) s) by exact B2.
    destruct (@fill_request_spec w n src buf1 (stored_shape d c) (r_off_in_chunk r) (r_shape r) (r_off_in_req r)) as (buf' & E & L' & I & O); auto.
    { apply Hb1. }
    rewrite Hz0, <- Hsame, <- make_view_subview in E. rewrite Hsame in E at 2. 
    rewrite Hsame in E.
    exists buf'. split; [rewrite Hsame; exact E|].
    apply (Hfinal buf1); auto. intros p Hp Hn. exfalso. apply Hn.
    rewrite Hz0. rewrite Hsame in Hp. rewrite <- Hsame in Hp |- *.
    assert (G : forall (sh q z : shape), length z = length sh -> in_shape sh q -> in_box (map (fun _ => 0) z) sh q).
    { clear. induction sh as [|x sh IH]; intros q [|z0 z] Hz Hq; try discriminate; inversion Hq; subst; cbn; constructor; try lia.
      apply IH; auto. }
    apply G; auto. destruct (valid_length Hc). lia.
  - assert (Hex := Hrd buf1 Hb1). rewrite Hex.
    set (buf2 := match old with None => map (fun _ => d_fill d) buf1 | Some data => data end).
    enough (G : exists buf', fill_request src buf2 (subview (make_view (stored_shape d c)) (r_off_in_chunk r) (r_shape r))
        (r_off_in_req r) (r_shape r) = Ok buf' /\ prepared off n c src old buf')
      by (unfold buf2 in G; destruct old; exact G).
    assert (B2 : buffer_of w (prod (stored_shape d c)) buf2).
    { unfold buf2. destruct old as [data|]; [exact Hold|]. destruct Hb1 as [L1 _]. split.
      - unfold lenN in *. rewrite map_length. exact L1.
      - apply Forall_forall. intros e He. apply in_map_iff in He as (? & <- & _). apply (do_fill ok). }
    assert (O2 : forall p, in_shape (stored_shape d c) p ->
       getN buf2 (rowmajor (stored_shape d c) p) = Ok (chunk_val old (stored_shape d c) p)).
    { intros p Hp. pose proof (rowmajor_lt Hp) as Hlt. unfold buf2. destruct old as [data|]; cbn.
      - apply cell_at_getN. destruct Hold as [-> _]. exact Hlt.
      - destruct Hb1 as [L1 _]. apply getN_ok. rewrite nth_error_map.
        destruct (nth_error buf1 _) eqn:En; [reflexivity|]. apply nth_error_None in En. unfold lenN in L1. lia. }
    destruct (@fill_request_spec w n src buf2 (stored_shape d c) (r_off_in_chunk r) (r_shape r) (r_off_in_req r)) as (buf' & E & L' & I & O); auto.
    { apply B2. }
    exists buf'. split; [exact E|]. apply (Hfinal buf2); auto.
Qed.

(** ** Elements and chunks *)
Lemma elem_chunk x : in_shape s x ->
  valid (chunk_of b x) /\ in_chunk s b (chunk_of b x) x /\
  in_shape (chunk_extent s b (chunk_of b x)) (pos_of b x) /\
  vadd (chunk_origin b (chunk_of b x)) (pos_of b x) = x.
Proof.
  intros Hx. destruct (elem_to_block_in (do_dims ok) Hx) as [H1 H2].
  change (elem_to_block b x) with (chunk_of b x) in *. split; [exact H1|]. split; [exact H2|].
  destruct (do_dims ok) as [_ D]. clear H1 H2. revert D Hx.
  generalize s as ss, b as bb. intros ss bb. revert ss x. unfold chunk_of, pos_of, chunk_origin, vadd.
  induction bb as [|b0 bb IH]; intros [|s0 ss] x D Hx; cbn in D; try tauto; inversion Hx; subst; cbn [map2 chunk_extent].
  - split; [constructor|reflexivity].
  - destruct D as [D0 D1]. destruct (IH ss l D1) as [I1 I2]; auto.
    destruct (div_facts x0 (proj1 D0)) as (q & r & -> & -> & E & R).
    split; [constructor; [lia|exact I1]|]. f_equal; [lia|exact I2].
Qed.

Lemma elem_stored x : in_shape s x -> in_shape (stored_shape d (chunk_of b x)) (pos_of b x).
Proof.
  intros Hx. destruct (elem_chunk Hx) as (H1 & _ & H2 & _). unfold stored_shape.
  destruct (d_zarr d); [|exact H2]. destruct (extent_props ok H1) as (_ & _ & E & _).
  eapply in_shape_mono; eauto.
Qed.

Lemma elem_unique c p : valid c -> in_shape (chunk_extent s b c) p ->
  in_shape s (vadd (chunk_origin b c) p) /\
  chunk_of b (vadd (chunk_origin b c) p) = c /\ pos_of b (vadd (chunk_origin b c) p) = p.
Proof.
  intros Hc Hp. destruct (do_dims ok) as [_ D]. revert D Hc Hp.
  unfold valid_chunk, chunk_of, pos_of, chunk_origin, vadd.
  generalize s as ss, b as bb. intros ss bb. revert ss c p.
  induction bb as [|b0 bb IH]; intros [|s0 ss] [|c0 c] p D Hc Hp; cbn in D, Hc; try tauto; inversion Hp; subst; cbn [map2].
  - repeat split; constructor.
  - destruct D as [D0 D1], Hc as [Hc0 Hc1]. destruct (IH ss c l D1 Hc1) as (I1 & I2 & I3); auto.
    destruct (div_facts (c0 * b0 + x) (proj1 D0)) as (q & r & E1 & E2 & E & R).
    assert (Eq : q = c0) by nia. rewrite Eq in E, E1. assert (Er : r = x) by lia. rewrite Er in E2.
    split; [constructor; [lia|exact I1]|]. rewrite E1, E2, I2, I3. auto.
Qed.

Lemma in_chunk_of c x : in_chunk s b c x -> chunk_of b x = c.
Proof. intros H. symmetry. apply (in_chunk_unique (do_dims ok) H). Qed.

Lemma region_in_shape off n x : valid_region s off n -> in_box off n x -> in_shape s x.
Proof.
  unfold valid_region. generalize s as ss. intros ss. revert off n x.
  induction ss as [|s0 ss IH]; intros [|o0 off] [|n0 n] x H Hb; cbn in H; try tauto; inversion Hb; subst; constructor; [lia|].
  eapply IH; [|eassumption]. tauto.
Qed.

(** The chunks of a request. *)
Lemma fold_mul l a : fold_left N.mul l a = a * prod l.
Proof. revert a. induction l as [|x l IH]; intros a; cbn; [lia|]. rewrite IH. lia. Qed.

Lemma prod_max1 lo hi : prod (map2 (fun l h => h + 1 - l) lo hi) <= prod (map2 (fun l h => N.max 1 (h + 1 - l)) lo hi).
Proof. revert hi. induction lo as [|l lo IH]; intros [|h hi]; cbn [map2 prod]; try lia. specialize (IH hi). nia. Qed.
Lemma begin_request_sorted off n : region_ok d off n ->
  exists l, begin_request d off n = Ok l /\ NoDup l /\ l <> [] /\ (forall c, In c l <-> overlaps s b off n c) /\
    StronglySorted lex_lt l.
Proof.
  intros [Hr Hs]. destruct (chunks_of_region (do_dims ok) Hr) as (l & E & NE & SO & ND & HI & _).
  exists l. split; [|auto]. unfold begin_request.
  assert (Hw : forall o e, In (o, e) (combine off n) -> o + e < W64).
  { destruct (do_dims ok) as [_ D]. revert D Hr. unfold valid_region. generalize s as ss, b as bb. clear.
    intros ss. revert off n. induction ss as [|s0 ss IH]; intros [|o0 off] [|n0 n] [|b0 bb] D H o e Hi; cbn in *; try tauto.
    destruct Hi as [Hi|Hi]; [inversion Hi; subst; lia|]. eapply IH; [| |exact Hi]; [apply D|apply H]. }
  rewrite (proj2 (proj1 (@check_request_exact s off n Hw)) Hr). cbn [bind].
  unfold d_blocking. rewrite (mk_blocking_ok (do_dims ok)). cbn [bind]. unfold chunk_requests.
  rewrite E; [reflexivity|].
  destruct (roi_lo_hi (do_dims ok) Hr) as (B1 & B2 & B3 & B4).
  assert (l = box (elem_to_block b off) (roi_hi b off n)) as ->.
  { pose proof (E (length l + length (box (elem_to_block b off) (roi_hi b off n)))%nat ltac:(lia)) as E'.
    unfold blocks_overlapping in E'. rewrite (max_blocks_spec (do_dims ok) Hr) in E'.
    rewrite make_grid_spec in E' by (auto; lia). congruence. }
  unfold grid_fuel. rewrite fold_mul, (max_blocks_spec (do_dims ok) Hr).
  pose proof (box_length_eq B3 B1) as L. unfold lenN in L.
  assert (LE := @prod_max1 (elem_to_block b off) (roi_hi b off n)). lia.
Qed.
Lemma begin_request_ok off n : region_ok d off n ->
  exists l, begin_request d off n = Ok l /\ NoDup l /\ l <> [] /\ (forall c, In c l <-> overlaps s b off n c).
Proof. intros H. destruct (begin_request_sorted H) as (l & H1 & H2 & H3 & H4 & _). eauto. Qed.

(** ** Reading what is there *)
Lemma holds_existing st C c : holds st C -> valid c ->
  content_ok c (C c) /\ existing_ok (plain_existing d st c) (prod (stored_shape d c)) (C c).
Proof.
  intros H Hc. specialize (H c Hc). destruct (read_holds ok Hc H) as (E & _ & _ & R).
  destruct (C c) as [data|] eqn:EC; cbn [option_map] in *.
  - destruct H as (bb & Hb & HD & HB & HL & _). specialize (HL eq_refl).
    split; [cbn; now rewrite <- HL|]. intros buf Hbuf. unfold plain_existing. rewrite E. cbn [bind negb].
    destruct (R false data eq_refl _ buf Hbuf) as (rest & -> & Er); [lia|auto|]. cbn [bind fst snd].
    destruct Hbuf as [Lb _]. assert (rest = []) as ->; [|now rewrite app_nil_r].
    assert (length buf = length data) by (unfold lenN in *; lia).
    rewrite <- H, firstn_all in Er. destruct rest; [reflexivity|].
    apply (f_equal (@length _)) in Er. rewrite app_length in Er. cbn in Er. lia.
  - split; [exact I|]. intros buf Hbuf. unfold plain_existing. rewrite E. reflexivity.
Qed.

Lemma same_fill v : elem_eq (d_type d) v (d_fill d) = true -> same_value d (d_fill d) v.
Proof.
  intros H. right. split; [|exact H]. unfold elem_eq in *. destruct (t_float (d_type d)).
  - apply andb_prop in H as [H _]. apply andb_prop in H as [_ H]. rewrite H. cbn. rewrite N.eqb_refl. reflexivity.
  - apply N.eqb_refl.
Qed.
Lemma same_value_refl v : same_value d v v.
Proof. now left. Qed.
Lemma same_value_trans u v x : same_value d u v -> same_value d v x -> same_value d u x.
Proof. intros [->|[A B]] [<-|[A' B']]; unfold same_value; auto. Qed.

Definition upd (C : shape -> option (list cell)) c v : shape -> option (list cell) :=
  fun c' => if list_eq_dec N.eq_dec c' c then v else C c'.

(** ** One chunk of a write *)
Lemma write_unit_spec src off n buf c st C : can_write (d_mode d) = true ->
  region_ok d off n -> source_ok w n src -> overlaps s b off n c -> any_buffer buf -> holds st C ->
  exists buf' v, write_unit d src off n buf c st =
      (set_key st (chunk_key (d_key d) c) v, Ok buf') /\ any_buffer buf' /\
    prepared off n c src (C c) buf' /\
    holds (set_key st (chunk_key (d_key d) c) v) (upd C c (if all_fill d buf' then None else Some buf')).
Proof.
  intros Hm Hreg Hsrc Hov Hbuf HC. pose proof (overlaps_valid Hov) as Hc.
  destruct (holds_existing HC Hc) as [K1 K2].
  destruct (prepare_spec Hreg Hsrc Hov Hbuf K1 K2) as (buf' & E & P).
  destruct (@write_chunk_spec d ok c buf' st Hm Hc (proj1 P)) as (v & W & HW).
  exists buf', v. split.
  { unfold write_unit, sbind, reading, pure. rewrite E, W. reflexivity. }
  split; [eexists; apply P|]. split; [exact P|].
  intros c' Hc'. unfold upd. destruct (list_eq_dec N.eq_dec c' c) as [->|Hn].
  - cbn [op_result] in HW. destruct (all_fill d buf'); exact HW.
  - apply holds_other; auto.
Qed.

(** Effect of a (partially processed) request on the contents. *)
Definition wrote (off n : shape) (src : source) (l : list shape) (C C' : shape -> option (list cell)) : Prop :=
  (forall x, in_shape s x -> In (chunk_of b x) l ->
     same_value d (val C' x) (if in_boxb off n x then source_value src (vsub x off) else val C x)) /\
  (forall c, ~ In c l -> C' c = C c).

Lemma prepared_wrote off n src c buf C : valid c -> prepared off n c src (C c) buf ->
  wrote off n src [c] C (upd C c (if all_fill d buf then None else Some buf)).
Proof.
  intros Hc [P1 P2]. split.
  - intros x Hx [E|[]]. unfold val, upd. rewrite <- E.
    destruct (list_eq_dec N.eq_dec c c) as [_|]; [|congruence].
    pose proof (elem_stored Hx) as Hp. rewrite <- E in Hp. specialize (P2 _ Hp). cbn zeta in P2.
    destruct (elem_chunk Hx) as (_ & _ & _ & Ex). rewrite <- E in Ex. rewrite Ex in P2.
    set (target := if in_boxb off n x then _ else _) in *.
    pose proof (getN_cell_at P2) as P3. destruct (all_fill d buf) eqn:Ef; cbn [chunk_val].
    + apply same_fill. unfold all_fill in Ef. rewrite forallb_forall in Ef. apply Ef.
      apply getN_ok, nth_error_In in P2. exact P2.
    + rewrite P3. now left.
  - intros c' Hn. unfold upd. destruct (list_eq_dec N.eq_dec c' c); [subst; cbn in Hn; tauto|reflexivity].
Qed.

Lemma wrote_cons off n src c l C C1 C2 : ~ In c l ->
  wrote off n src [c] C C1 -> wrote off n src l C1 C2 -> wrote off n src (c :: l) C C2.
Proof.
  intros Hn [A1 A2] [B1 B2]. split.
  - intros x Hx [E|Hin].
    + unfold val in *. rewrite B2 by (rewrite <- E; auto). apply A1; cbn; auto.
    + specialize (B1 x Hx Hin). unfold val in *. rewrite (A2 (chunk_of b x)) in B1; [exact B1|].
      intros [E|[]]. subst c. contradiction.
  - intros c' Hc'. cbn in Hc'. rewrite B2, A2; cbn; tauto.
Qed.

Lemma write_fold src off n l : can_write (d_mode d) = true ->
  region_ok d off n -> source_ok w n src -> NoDup l -> (forall c, In c l -> overlaps s b off n c) ->
  forall buf st C, any_buffer buf -> holds st C ->
  exists buf' st' C', foldS (write_unit d src off n) l buf st = (st', Ok buf') /\
    holds st' C' /\ wrote off n src l C C' /\
    (forall k, (forall c, In c l -> k <> chunk_key (d_key d) c) -> st' k = st k).
Proof.
  intros Hm Hreg Hsrc. induction l as [|c l IH]; intros ND HO buf st C Hbuf HC.
  - exists buf, st, C. cbn. repeat split; auto; intros; match goal with H : In _ [] |- _ => destruct H end.
  - inversion ND as [|? ? N1 N2]; subst.
    destruct (@write_unit_spec src off n buf c st C) as (buf1 & v & E & B1 & P & H1); auto.
    { apply HO; cbn; auto. }
    destruct (IH N2 (fun c' H => HO c' (or_intror H)) buf1 _ _ B1 H1) as (buf2 & st2 & C2 & E2 & H2 & W2 & F2).
    exists buf2, st2, C2. split.
    { cbn [foldS]. unfold sbind at 1. rewrite E. exact E2. }
    split; [exact H2|]. split.
    + eapply wrote_cons; [exact N1| |exact W2]. apply prepared_wrote; [|exact P].
      eapply overlaps_valid. apply HO. cbn; auto.
    + intros k Hk. rewrite F2 by (intros; apply Hk; cbn; auto). apply set_key_other. apply Hk. cbn; auto.
Qed.

Lemma fill_buffer : any_buffer (repeat (d_fill d) (N.to_nat (prodw b))).
Proof.
  eexists. split; [reflexivity|]. apply Forall_forall. intros e He. apply repeat_spec in He. subst e. apply (do_fill ok).
Qed.

(** A write request: the region has the new values, all other elements the old ones. *)
Lemma write_request_spec src off n st C : can_write (d_mode d) = true ->
  region_ok d off n -> source_ok w n src -> holds st C ->
  exists st' C', write_request d src off n st = (st', Ok tt) /\ holds st' C' /\
    (forall x, in_shape s x ->
       same_value d (val C' x) (if in_boxb off n x then source_value src (vsub x off) else val C x)) /\
    (forall k, (forall c, overlaps s b off n c -> k <> chunk_key (d_key d) c) -> st' k = st k) /\
    (forall c, ~ overlaps s b off n c -> C' c = C c).
Proof.
  intros Hm Hreg Hsrc HC. destruct (begin_request_ok Hreg) as (l & E & ND & _ & HI).
  destruct (@write_fold src off n l Hm Hreg Hsrc ND (fun c H => proj1 (HI c) H) _ st C fill_buffer HC)
    as (buf' & st' & C' & E2 & H' & [W1 W2] & F).
  exists st', C'. split.
  { unfold write_request, write_plain, sbind, pure. rewrite E, E2. reflexivity. }
  split; [exact H'|]. split; [|split].
  - intros x Hx. destruct (in_dec (list_eq_dec N.eq_dec) (chunk_of b x) l) as [Hin|Hn]; [now apply W1|].
    destruct (in_boxb off n x) eqn:Eb.
    + exfalso. apply Hn, HI. apply in_boxb_spec in Eb. exists x. split; [exact Eb|]. apply elem_chunk, Hx.
    + unfold val. rewrite W2 by exact Hn. now left.
  - intros k Hk. apply F. intros c Hin. apply Hk, HI, Hin.
  - intros c Hn. apply W2. rewrite HI. exact Hn.
Qed.

(** ** Histories *)
Definition represents (C : shape -> option (list cell)) (a : shape -> cell) : Prop :=
  forall x, in_shape s x -> same_value d (val C x) (a x).

Lemma run_array_op_spec o st C a : can_write (d_mode d) = true -> array_op_ok d o ->
  holds st C -> represents C a ->
  exists st' C', run_array_op d o st = (st', Ok tt) /\ holds st' C' /\ represents C' (apply_op d o a) /\
    (forall k, (forall c, valid c -> k <> chunk_key (d_key d) c) -> st' k = st k).
Proof.
  intros Hm Hok HC Ha. destruct o as [off n src|c data|c]; cbn [run_array_op array_op_ok] in *.
  - destruct Hok as [Hreg Hsrc]. destruct (write_request_spec Hm Hreg Hsrc HC) as (st' & C' & E & H' & V & F & _).
    exists st', C'. repeat split; auto.
    + intros x Hx. unfold apply_op. eapply same_value_trans; [apply V, Hx|].
      destruct (in_boxb off n x); [now left|apply Ha, Hx].
    + intros k Hk. apply F. intros c Hov. apply Hk. eapply overlaps_valid, Hov.
  - destruct Hok as [Hc Hd]. destruct (@write_chunk_spec d ok c data st Hm Hc Hd) as (v & W & HW).
    exists (set_key st (chunk_key (d_key d) c) v), (upd C c (if all_fill d data then None else Some data)).
    split; [exact W|]. split; [|split].
    + intros c' Hc'. unfold upd. destruct (list_eq_dec N.eq_dec c' c) as [->|Hn]; [|apply holds_other; auto].
      cbn [op_result] in HW. destruct (all_fill d data); exact HW.
    + intros x Hx. unfold apply_op, val, upd.
      destruct (list_eq_dec N.eq_dec (chunk_of b x) c) as [E|Hn]; [|apply Ha, Hx].
      rewrite E. destruct (all_fill d data) eqn:Ef; cbn [chunk_val]; [|now left].
      apply same_fill. unfold all_fill in Ef. rewrite forallb_forall in Ef. apply Ef.
      pose proof (elem_stored Hx) as Hp. rewrite E in Hp. apply rowmajor_lt in Hp. destruct Hd as [Ld _].
      rewrite <- Ld in Hp. apply cell_at_getN, getN_ok, nth_error_In in Hp. exact Hp.
    + intros k Hk. apply set_key_other. now apply Hk.
  - exists (set_key st (chunk_key (d_key d) c) None), (upd C c None).
    split; [now apply remove_chunk_spec|]. split; [|split].
    + intros c' Hc'. unfold upd. destruct (list_eq_dec N.eq_dec c' c) as [->|Hn]; [|apply holds_other; auto].
      cbn. apply set_key_same.
    + intros x Hx. unfold apply_op, val, upd.
      destruct (list_eq_dec N.eq_dec (chunk_of b x) c) as [E|Hn]; [|apply Ha, Hx]. now left.
    + intros k Hk. apply set_key_other. now apply Hk.
Qed.

Lemma run_array_ops_spec ops : can_write (d_mode d) = true -> Forall (array_op_ok d) ops ->
  forall st C a, holds st C -> represents C a ->
  exists st' C', run_array_ops d ops st = (st', Ok tt) /\ holds st' C' /\ represents C' (apply_ops d ops a) /\
    (forall k, (forall c, valid c -> k <> chunk_key (d_key d) c) -> st' k = st k).
Proof.
  intros Hm. unfold run_array_ops. induction 1 as [|o ops Ho Hops IH]; intros st C a HC Ha.
  - exists st, C. cbn. auto.
  - destruct (run_array_op_spec Hm Ho HC Ha) as (st1 & C1 & E1 & H1 & R1 & F1).
    destruct (IH st1 C1 _ H1 R1) as (st2 & C2 & E2 & H2 & R2 & F2).
    exists st2, C2. split; [cbn [foldS]; unfold sbind at 1; rewrite E1; exact E2|].
    split; [exact H2|]. split; [exact R2|]. intros k Hk. rewrite F2, F1; auto.
Qed.

Lemma holds_empty st : (forall c, valid c -> st (chunk_key (d_key d) c) = None) -> holds st (fun _ => None).
Proof. intros H c Hc. cbn. now apply H. Qed.
Lemma represents_empty : represents (fun _ => None) (fun _ => d_fill d).
Proof. intros x Hx. now left. Qed.
End WithDataset.
