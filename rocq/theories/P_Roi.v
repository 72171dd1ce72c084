(** Proofs about chunks, regions and their intersections. *)
From Coq Require Import Sorted.
From Verif Require Import M_Base S_Array S_Grid M_Blocking P_Base P_Blocking.

(** ** every element is in exactly one chunk *)
Lemma elem_to_block_in s b x : dims_ok s b -> in_shape s x ->
  valid_chunk s b (elem_to_block b x) /\ in_chunk s b (elem_to_block b x) x.
Proof.
  intros [_ H] Hx. revert b H. unfold valid_chunk, in_chunk, elem_to_block.
  induction Hx as [|x n xs ns Hx Hxs IH]; intros [|b0 b] H; cbn in H; try contradiction.
  - cbn; auto.
  - destruct H as [[Hb Hw] H]. specialize (IH b H). cbn [map2 all3 all4].
    destruct IH as [IH1 IH2]. destruct (div_facts x Hb) as (q & r & -> & _ & E & Hr).
    repeat split; auto; nia.
Qed.

Lemma in_chunk_unique s b k x : dims_ok s b -> in_chunk s b k x -> k = elem_to_block b x.
Proof.
  intros [_ H]. unfold in_chunk, elem_to_block. revert b k x H.
  induction s as [|s0 s IH]; intros [|b0 b] [|k0 k] [|x0 x] H Hc; cbn in H, Hc; try contradiction.
  - reflexivity.
  - destruct H as [[Hb Hw] H], Hc as [Hc0 Hc]. cbn [map2]. f_equal.
    + symmetry. apply div_lt_iff; lia.
    + apply IH; assumption.
Qed.

(** The modelled begin / shape of a valid chunk describe exactly [in_chunk]. *)
Lemma block_box_spec s b k x : dims_ok s b -> valid_chunk s b k ->
  in_box (block_begin b k) (block_shape_of s b k) x <-> in_chunk s b k x.
Proof.
  intros [_ H] Hv. unfold in_chunk, valid_chunk, block_shape_of, block_begin in *.
  revert b k x H Hv.
  induction s as [|s0 s IH]; intros [|b0 b] [|k0 k] x H Hv; cbn in H, Hv; try contradiction.
  - cbn. destruct x; split; intros Hx; try contradiction; try constructor; inversion Hx.
  - destruct H as [[Hb Hw] H], Hv as [Hv0 Hv].
    cbn [block_end map2].
    rewrite (mulw_chunk Hb Hw Hv0), (block_end1_spec Hb Hw Hv0).
    rewrite subw_small by lia.
    destruct x as [|x0 x]; cbn [all4].
    + split; [intros Hx; inversion Hx|tauto].
    + rewrite <- (IH b k x H Hv). split.
      * intros Hx; inversion Hx; subst. repeat split; auto; lia.
      * intros [Hx0 Hx]. constructor; auto; lia.
Qed.

Lemma block_shape_extent s b k : dims_ok s b -> valid_chunk s b k ->
  block_shape_of s b k = chunk_extent s b k /\ bounded_shape s b k = chunk_extent s b k /\
  block_begin b k = chunk_origin b k.
Proof.
  intros [_ H] Hv. unfold valid_chunk, block_shape_of, block_begin, chunk_origin in *.
  revert b k H Hv.
  induction s as [|s0 s IH]; intros [|b0 b] [|k0 k] H Hv; cbn in H, Hv; try contradiction.
  - auto.
  - destruct H as [[Hb Hw] H], Hv as [Hv0 Hv]. destruct (IH b k H Hv) as (IH1 & IH2 & IH3).
    cbn [block_end map2 bounded_shape chunk_extent].
    rewrite (block_end1_spec Hb Hw Hv0), (bounded1_spec Hb Hw Hv0), (mulw_chunk Hb Hw Hv0).
    rewrite subw_small by lia. rewrite IH1, IH2, IH3. auto.
Qed.

Lemma block_shape_bounds s b k : dims_ok s b -> valid_chunk s b k ->
  all4 (fun s b k n => 0 < n /\ n <= b /\ k * b + n <= s) s b k (block_shape_of s b k) /\
  block_begin b k = map2 N.mul k b /\
  bounded_shape s b k = block_shape_of s b k /\
  vadd (block_begin b k) (block_shape_of s b k) = block_end s b k.
Proof.
  intros [_ H] Hv. unfold valid_chunk, block_shape_of, block_begin, vadd in *.
  revert b k H Hv.
  induction s as [|s0 s IH]; intros [|b0 b] [|k0 k] H Hv; cbn in H, Hv; try contradiction.
  - cbn; auto.
  - destruct H as [[Hb Hw] H], Hv as [Hv0 Hv]. destruct (IH b k H Hv) as (IH1 & IH2 & IH3 & IH4).
    cbn [block_end map2 bounded_shape all4].
    rewrite (mulw_chunk Hb Hw Hv0), (block_end1_spec Hb Hw Hv0), (bounded1_spec Hb Hw Hv0).
    rewrite subw_small by lia. rewrite IH3, IH4. split; [|split; [|split]].
    + split; [lia|exact IH1].
    + f_equal. exact IH2.
    + reflexivity.
    + f_equal. lia.
Qed.

(** ** chunks overlapping a region *)
Definition roi_hi (b off n : list N) : list N :=
  map2 (fun e b => (e - 1) / b) (vadd off n) b.

Lemma max_blocks_spec s b off n : dims_ok s b -> valid_region s off n ->
  max_blocks b off n = roi_hi b off n.
Proof.
  intros [_ H]. unfold valid_region, roi_hi, vadd. revert b off n H.
  induction s as [|s0 s IH]; intros [|b0 b] [|o0 off] [|n0 n] H Hr; cbn in H, Hr; try contradiction.
  - reflexivity.
  - destruct H as [[Hb Hw] H], Hr as [[Hn Hs] Hr]. cbn [max_blocks map2].
    rewrite (max_block_spec Hb Hn Hs Hw). f_equal. auto.
Qed.

Lemma roi_lo_hi s b off n : dims_ok s b -> valid_region s off n ->
  between (elem_to_block b off) (roi_hi b off n) (elem_to_block b off) /\
  below_wrap (roi_hi b off n) /\ length (elem_to_block b off) = length (roi_hi b off n) /\
  elem_to_block b off <> [].
Proof.
  intros [Hne H] Hr. unfold between, below_wrap, valid_region, roi_hi, vadd, elem_to_block in *.
  split; [|split; [|split]].
  - clear Hne. revert b off n H Hr.
    induction s as [|s0 s IH]; intros [|b0 b] [|o0 off] [|n0 n] H Hr; cbn in H, Hr; try contradiction.
    + exact I.
    + destruct H as [[Hb Hw] H], Hr as [[Hn Hs] Hr]. cbn [map2 all3]. split; [|auto].
      split; [lia|]. apply N.div_le_mono; lia.
  - clear Hne. revert b off n H Hr.
    induction s as [|s0 s IH]; intros [|b0 b] [|o0 off] [|n0 n] H Hr; cbn in H, Hr; try contradiction.
    + constructor.
    + destruct H as [[Hb Hw] H], Hr as [[Hn Hs] Hr]. cbn [map2]. constructor; [|auto].
      destruct (div_facts (o0 + n0 - 1) Hb) as (q & r & -> & _ & E & Hq). nia.
  - clear Hne. revert b off n H Hr.
    induction s as [|s0 s IH]; intros [|b0 b] [|o0 off] [|n0 n] H Hr; cbn in H, Hr; try contradiction.
    + reflexivity.
    + destruct H as [_ H], Hr as [_ Hr]. cbn. f_equal. auto.
  - destruct s as [|s0 s]; [congruence|]. destruct b, off, n; cbn in *; try contradiction. discriminate.
Qed.

Lemma between_overlaps s b off n k : dims_ok s b -> valid_region s off n ->
  between (elem_to_block b off) (roi_hi b off n) k <-> overlaps s b off n k.
Proof.
  intros [_ H] Hr.
  unfold between, overlaps, in_chunk, valid_region, roi_hi, vadd, elem_to_block in *.
  revert b off n k H Hr.
  induction s as [|s0 s IH]; intros [|b0 b] [|o0 off] [|n0 n] k H Hr; cbn in H, Hr; try contradiction.
  - destruct k as [|k0 k]; cbn.
    + split; [|auto]. intros _. exists []. split; [constructor|exact I].
    + split; [tauto|]. intros (x & Hx & Hc). destruct x; exact Hc.
  - destruct H as [[Hb Hw] H], Hr as [[Hn Hs] Hr]. cbn [map2].
    destruct (div_facts o0 Hb) as (q & r & -> & _ & E & Hq).
    destruct (div_facts (o0 + n0 - 1) Hb) as (q' & r' & -> & _ & E' & Hq').
    destruct k as [|k0 k]; cbn [all3].
    + split; [tauto|]. intros (x & Hx & Hc). destruct x; exact Hc.
    + rewrite (IH b off n k H Hr). split.
      * intros [Hk (x & Hx & Hc)].
        exists (N.max o0 (k0 * b0) :: x). split.
        -- constructor; [lia|nia|exact Hx].
        -- cbn [all4]. split; [|exact Hc]. nia.
      * intros (x & Hx & Hc). inversion Hx as [|? ? x0 ? ? x' Hx1 Hx2 Hx']; subst. cbn [all4] in Hc.
        destruct Hc as [Hc0 Hc]. split; [nia|]. eauto.
Qed.

Lemma overlaps_valid s b off n k : overlaps s b off n k -> valid_chunk s b k.
Proof.
  intros (x & _ & Hc). unfold in_chunk, valid_chunk in *. revert b k x Hc.
  induction s as [|s0 s IH]; intros [|b0 b] [|k0 k] [|x0 x] Hc; cbn in Hc; try contradiction.
  - exact I.
  - destruct Hc as [Hc0 Hc]. cbn. split; [lia|eauto].
Qed.

Theorem blocks_overlapping_spec s b off n : dims_ok s b -> valid_region s off n ->
  exists l, (forall fuel, (length l <= fuel)%nat -> blocks_overlapping fuel b off n = Some l) /\
    l <> [] /\
    StronglySorted lex_lt l /\ NoDup l /\
    (forall k, In k l <-> overlaps s b off n k).
Proof.
  intros Hd Hr. destruct (roi_lo_hi Hd Hr) as (Hb & Hw & Hl & Hne).
  exists (box (elem_to_block b off) (roi_hi b off n)). split; [|split; [|split; [|split]]].
  - intros fuel Hf. unfold blocks_overlapping. rewrite (max_blocks_spec Hd Hr).
    apply make_grid_spec; assumption.
  - intros E. apply (box_In _ Hl) in Hb. rewrite E in Hb. exact Hb.
  - apply box_sorted.
  - apply sorted_NoDup, box_sorted.
  - intros k. rewrite (box_In k Hl). apply between_overlaps; assumption.
Qed.

(** ** intersection geometry, one axis *)
Lemma to_int32_nonneg d : d < 2 ^ 31 -> to_int32 d = Z.of_N d.
Proof.
  intros H. unfold to_int32. change (2 ^ 31) with 2147483648 in H.
  rewrite N.mod_small by (change (2 ^ 32) with 4294967296; lia).
  change (2 ^ 31)%Z with 2147483648%Z. destruct (Z.ltb_spec (Z.of_N d) 2147483648); lia.
Qed.
Lemma to_int32_neg d : 0 < d -> d <= 2 ^ 31 -> to_int32 (W64 - d) = (- Z.of_N d)%Z.
Proof.
  intros H0 H. unfold to_int32. rewrite W64_val. change (2 ^ 31) with 2147483648 in H.
  replace ((18446744073709551616 - d) mod 2 ^ 32) with (4294967296 - d).
  - change (2 ^ 31)%Z with 2147483648%Z. change (2 ^ 32)%Z with 4294967296%Z.
    destruct (Z.ltb_spec (Z.of_N (4294967296 - d)) 2147483648); lia.
  - change (2 ^ 32) with 4294967296.
    apply (N.mod_unique _ _ 4294967295); lia.
Qed.

Lemma coords_in_roi1_spec s b k off n : 0 < b -> s + b <= W64 -> k * b < s ->
  0 < n -> off + n <= s -> n <= 2 ^ 31 -> b <= 2 ^ 31 ->
  k * b < off + n -> off < N.min ((k + 1) * b) s ->
  let bend := N.min ((k + 1) * b) s in
  coords_in_roi1 s b k off n =
    Ok (AxisRoi (N.max (k * b) off - off) (N.min bend (off + n) - N.max (k * b) off)
                (N.max (k * b) off - k * b) ((off <=? k * b) && (bend <=? off + n))).
Proof.
  intros Hb Hw Hk Hn Hs Hn31 Hb31 Ho1 Ho2 bend. unfold coords_in_roi1.
  rewrite (mulw_chunk Hb Hw Hk), (block_end1_spec Hb Hw Hk). fold bend.
  assert (off < bend) by exact Ho2.
  assert (k * b < bend) by (unfold bend; nia).
  assert (bend <= s) by (unfold bend; lia).
  assert (bend <= k * b + b) by (unfold bend; nia). clearbody bend.
  set (kb := k * b) in *. clearbody kb.
  rewrite (subw_small (a := bend)) by lia.
  rewrite (addw_small (a := kb)) by lia. replace (kb + (bend - kb)) with bend by lia.
  rewrite (addw_small (a := off)) by lia.
  assert (2 ^ 31 = 2147483648) as E31 by reflexivity. rewrite E31 in Hn31, Hb31.
  destruct (N.ltb_spec kb off) as [Hlt|Hge].
  - rewrite (subw_neg (a := kb) (b := off)) by lia. rewrite to_int32_neg by lia.
    destruct (Z.ltb_spec (- Z.of_N (off - kb)) 0) as [_|]; [|lia].
    unfold neg_int32. change (- 2 ^ 31)%Z with (-2147483648)%Z.
    destruct (Z.eqb_spec (- Z.of_N (off - kb)) (-2147483648)) as [E|_]; [lia|].
    cbn [bind]. unfold of_int. rewrite Z.mod_small; [|change (2 ^ 64)%Z with (18446744073709551616)%Z; lia].
    f_equal. f_equal.
    + lia.
    + destruct (N.leb_spec bend (off + n)); rewrite subw_small; lia.
    + lia.
    + destruct (N.leb_spec off kb); [lia|]. reflexivity.
  - rewrite (subw_small (a := kb) (b := off)) by lia. rewrite to_int32_nonneg by lia.
    destruct (Z.ltb_spec (Z.of_N (kb - off)) 0) as [|_]; [lia|].
    destruct (N.leb_spec bend (off + n)) as [Hle|Hgt].
    + rewrite (subw_small (a := off + n) (b := bend)) by lia. rewrite to_int32_nonneg by lia.
      destruct (Z.ltb_spec (Z.of_N (off + n - bend)) 0) as [|_]; [lia|].
      f_equal. f_equal; lia.
    + rewrite (subw_neg (a := off + n) (b := bend)) by lia. rewrite to_int32_neg by lia.
      destruct (Z.ltb_spec (- Z.of_N (bend - (off + n))) 0) as [_|]; [|lia].
      rewrite subw_small by lia. f_equal. f_equal; lia.
Qed.

(** ** intersection geometry, all axes *)
(** Pure description of the intersection per axis. *)
Fixpoint isect (s b k off n : list N) : list axis_roi :=
  match s, b, k, off, n with
  | s0 :: sr, b0 :: br, k0 :: kr, o0 :: or, n0 :: nr =>
      let bend := N.min ((k0 + 1) * b0) s0 in
      AxisRoi (N.max (k0 * b0) o0 - o0) (N.min bend (o0 + n0) - N.max (k0 * b0) o0)
              (N.max (k0 * b0) o0 - k0 * b0) ((o0 <=? k0 * b0) && (bend <=? o0 + n0))
      :: isect sr br kr or nr
  | _, _, _, _, _ => []
  end.

Lemma in_box_in_chunk_axis o n x s b k :
  o <= x -> x < o + n -> k * b <= x /\ x < (k + 1) * b /\ x < s ->
  k * b < s /\ k * b < o + n /\ o < N.min ((k + 1) * b) s.
Proof. lia. Qed.

Lemma coords_in_roi_axes_spec s b k off n : dims_ok s b -> valid_region s off n ->
  small_request b n -> overlaps s b off n k ->
  coords_in_roi_axes s b k off n = Ok (isect s b k off n).
Proof.
  intros [_ H] Hr Hsm (x & Hx & Hc). unfold valid_region, small_request, in_chunk in *.
  revert b k off n x H Hr Hsm Hx Hc.
  induction s as [|s0 s IH]; intros [|b0 b] [|k0 k] [|o0 off] [|n0 n] [|x0 x] H Hr Hsm Hx Hc;
    cbn in H, Hr, Hsm, Hc; try contradiction.
  - reflexivity.
  - destruct H as [[Hb Hw] H], Hr as [[Hn Hs] Hr], Hsm as [[Hb31 Hn31] Hsm], Hc as [Hc0 Hc].
    inversion Hx as [|? ? ? ? ? ? Hx1 Hx2 Hx']; subst.
    destruct (in_box_in_chunk_axis Hx1 Hx2 Hc0) as (Ha & Hb' & Hc').
    cbn [coords_in_roi_axes isect].
    rewrite (coords_in_roi1_spec Hb Hw Ha Hn Hs Hn31 Hb31 Hb' Hc'). cbn [bind].
    rewrite (IH b k off n x H Hr Hsm Hx' Hc). reflexivity.
Qed.

Lemma isect_props s b k off n : dims_ok s b -> valid_region s off n -> overlaps s b off n k ->
  roi_exact s b k off n
    (map a_begin_in_roi (isect s b k off n)) (map a_shape_in_roi (isect s b k off n))
    (map a_begin_in_block (isect s b k off n)) (forallb a_complete (isect s b k off n)).
Proof.
  intros [_ H] Hr (x & Hx & Hc). unfold valid_region, in_chunk in *.
  revert b k off n x H Hr Hx Hc.
  induction s as [|s0 s IH]; intros [|b0 b] [|k0 k] [|o0 off] [|n0 n] [|x0 x] H Hr Hx Hc;
    cbn in H, Hr, Hc; try contradiction.
  - cbn. constructor; cbn.
    + intros [|y ys]; unfold in_chunk; cbn; split; try tauto.
      * intros HH; inversion HH.
    + reflexivity.
    + constructor.
    + exact I.
    + exact I.
    + split; [|auto]. intros _ [|y ys]; unfold in_chunk; cbn; [constructor|tauto].
    + auto.
  - destruct H as [[Hb Hw] H], Hr as [[Hn Hs] Hr], Hc as [Hc0 Hc].
    inversion Hx as [|? ? ? ? ? ? Hx1 Hx2 Hx']; subst.
    destruct (in_box_in_chunk_axis Hx1 Hx2 Hc0) as (Ha & Hb' & Hc').
    specialize (IH b k off n x H Hr Hx' Hc).
    destruct IH as [I1 I2 I3 I4 I5 I7 I8].
    cbn [isect map forallb a_begin_in_roi a_shape_in_roi a_begin_in_block a_complete].
    set (oreq := map a_begin_in_roi (isect s b k off n)) in *.
    set (sh := map a_shape_in_roi (isect s b k off n)) in *.
    set (ochk := map a_begin_in_block (isect s b k off n)) in *.
    set (cpl := forallb a_complete (isect s b k off n)) in *.
    constructor.
    + intros y. unfold vadd, in_chunk in *. cbn [map2]. destruct y as [|y0 y].
      { split; [intros HH; inversion HH|intros [HH _]; inversion HH]. }
      cbn [all4]. split.
      * intros HH; inversion HH as [|? ? ? ? ? ? Hy1 Hy2 Hy']; subst. apply I1 in Hy' as [Hy1' Hy2'].
        split; [constructor; [lia|lia|assumption]|]. split; [lia|assumption].
      * intros [HH [Hy0 Hyc]]. inversion HH as [|? ? ? ? ? ? Hy1 Hy2 Hy']; subst.
        constructor; [lia|lia|]. apply I1. auto.
    + unfold vadd, chunk_origin in *. cbn [map2]. f_equal; [lia|exact I2].
    + constructor; [lia|exact I3].
    + cbn [all3]. split; [lia|exact I4].
    + cbn [all3 chunk_extent]. split; [lia|exact I5].
    + rewrite !andb_true_iff, I7. unfold in_chunk in *. split.
      * intros [[He1 He2] He] [|y0 y] Hy; cbn [all4] in Hy; [contradiction|].
        destruct Hy as [Hy0 Hy]. constructor; [lia|lia|]. apply He. exact Hy.
      * intros He. split.
        -- assert (He1 := He (k0 * b0 :: x)). cbn [all4] in He1.
           assert (He2 := He (N.min ((k0 + 1) * b0) s0 - 1 :: x)). cbn [all4] in He2.
           assert (in_box (o0 :: off) (n0 :: n) (k0 * b0 :: x)) as HA.
           { apply He1. split; [nia|exact Hc]. }
           assert (in_box (o0 :: off) (n0 :: n) (N.min ((k0 + 1) * b0) s0 - 1 :: x)) as HB.
           { apply He2. split; [nia|exact Hc]. }
           inversion HA; inversion HB; subst. lia.
        -- intros y Hy. assert (in_box (o0 :: off) (n0 :: n) (x0 :: y)) as HA.
           { apply He. cbn [all4]. split; assumption. }
           inversion HA; assumption.
    + rewrite !andb_true_iff. intros [[He1 He2] He]. cbn [chunk_extent map].
      destruct (I8 He) as [I8a I8b]. split; f_equal; [lia|exact I8a|lia|exact I8b].
Qed.

Theorem coords_in_roi_exact s b k off n : dims_ok s b -> valid_region s off n ->
  small_request b n -> overlaps s b off n k ->
  exists r, coords_in_roi s b k off n = Ok r /\
    roi_exact s b k off n (r_off_in_req r) (r_shape r) (r_off_in_chunk r) (r_complete r).
Proof.
  intros Hd Hr Hs Ho. eexists. split.
  - unfold coords_in_roi. rewrite (coords_in_roi_axes_spec Hd Hr Hs Ho). cbn [bind]. reflexivity.
  - apply isect_props; assumption.
Qed.

(** ** request validation *)
Lemma check_axes_spec s off n : (forall o e, In (o, e) (combine off n) -> o + e < W64) ->
  length off = length s -> length n = length s ->
  check_axes s off n = true <-> valid_region s off n.
Proof.
  unfold valid_region. revert off n.
  induction s as [|s0 s IH]; intros [|o0 off] [|n0 n] Hw Hl1 Hl2;
    cbn in Hl1, Hl2; try discriminate.
  - cbn; tauto.
  - assert (o0 + n0 < W64) as Hw0 by (apply Hw; cbn; auto).
    assert (forall o e, In (o, e) (combine off n) -> o + e < W64) as Hw' by (intros; apply Hw; cbn; auto).
    cbn [check_axes all3]. unfold check_axis. rewrite addw_small by lia.
    rewrite andb_true_iff, (IH off n Hw') by lia. split; (intros [HA HB]; split; [lia|exact HB]).
Qed.

Lemma check_request_exact s off n :
  (forall o e, In (o, e) (combine off n) -> o + e < W64) ->
  (check_request s off n = Ok tt <-> valid_region s off n) /\
  (check_request s off n = Throw ERuntime <-> ~ valid_region s off n).
Proof.
  intros Hw. unfold check_request. destruct (negb _) eqn:E.
  - assert (~ valid_region s off n) as Hn.
    { unfold valid_region. intros H. apply all3_length in H. unfold lenN in E. lia. }
    split; split; try congruence; tauto.
  - assert (length off = length s /\ length n = length s) as [Hl1 Hl2] by (unfold lenN in E; lia).
    pose proof (check_axes_spec Hw Hl1 Hl2) as Hc.
    destruct (check_axes s off n); split; split; try congruence; intuition congruence.
Qed.

(** Every accepted request that does not wrap is valid; an accepted invalid
    request has an axis whose end exceeds 2^64. *)
Lemma check_request_wrap s off n : Forall (fun x => x < W64) s ->
  check_request s off n = Ok tt ->
  valid_region s off n \/ exists o e, In (o, e) (combine off n) /\ W64 <= o + e.
Proof.
  intros _ H.
  assert ((forall o e, In (o, e) (combine off n) -> o + e < W64) \/
          exists o e, In (o, e) (combine off n) /\ W64 <= o + e) as [Hw|Hw].
  { induction (combine off n) as [|[o e] l IH].
    - left; intros ? ? [].
    - destruct IH as [IH|(o' & e' & Hin & Hge)].
      + destruct (N.ltb_spec (o + e) W64) as [Hlt|Hge].
        * left. intros o' e' [[= <- <-]|Hin]; auto.
        * right. exists o, e. cbn; auto.
      + right. exists o', e'. cbn; auto. }
  - left. apply (check_request_exact s Hw). exact H.
  - right. exact Hw.
Qed.

Lemma check_request_wrap_refuted :
  exists s off n, Forall (fun x => x < W64) (s ++ off ++ n) /\
    check_request s off n = Ok tt /\ ~ valid_region s off n.
Proof.
  exists [10], [18446744073709551615], [5]. split; [|split].
  - rewrite W64_val. cbn. repeat constructor.
  - vm_compute. reflexivity.
  - unfold valid_region. cbn. lia.
Qed.

Lemma coords_in_roi_large_value :
  coords_in_roi [4294967296] [1073741824] [3] [0] [4294967296] =
    Ok (RoiCoords [0] [4294967296] [1073741824] false).
Proof. vm_compute. reflexivity. Qed.

Lemma coords_in_roi_large_refuted :
  exists s b k off n, dims_ok s b /\ valid_region s off n /\ overlaps s b off n k /\
    prod s < W64 /\
    ~ (exists r, coords_in_roi s b k off n = Ok r /\
        roi_exact s b k off n (r_off_in_req r) (r_shape r) (r_off_in_chunk r) (r_complete r)).
Proof.
  exists [4294967296], [1073741824], [3], [0], [4294967296].
  assert (overlaps [4294967296] [1073741824] [0] [4294967296] [3]) as Ho.
  { exists [3221225472]. unfold in_chunk. cbn [all4]. split; [repeat constructor; lia|repeat split; lia]. }
  split; [|split; [|split; [exact Ho|split]]].
  - unfold dims_ok. cbn [all2]. rewrite W64_val. split; [discriminate|repeat split; lia].
  - unfold valid_region. cbn [all3]. repeat split; lia.
  - rewrite W64_val. vm_compute. reflexivity.
  - intros (r & E & Hr). rewrite coords_in_roi_large_value in E. injection E as <-.
    destruct Hr as [H1 _ _ _ _ _ _]. cbn [r_off_in_req r_shape] in H1.
    assert (in_box (vadd [0] [0]) [4294967296] [0]) as Hx by (repeat constructor; lia).
    apply H1 in Hx as [_ Hx]. unfold in_chunk in Hx. cbn [all4] in Hx. lia.
Qed.

Lemma chunks_tile s b : dims_ok s b ->
  (forall x, in_shape s x ->
     valid_chunk s b (elem_to_block b x) /\
     in_box (block_begin b (elem_to_block b x)) (block_shape_of s b (elem_to_block b x)) x /\
     (forall k, valid_chunk s b k -> in_box (block_begin b k) (block_shape_of s b k) x ->
                k = elem_to_block b x)) /\
  (forall k, valid_chunk s b k ->
     all4 (fun s b k n => 0 < n /\ n <= b /\ k * b + n <= s) s b k (block_shape_of s b k) /\
     block_begin b k = map2 N.mul k b /\
     bounded_shape s b k = block_shape_of s b k /\
     vadd (block_begin b k) (block_shape_of s b k) = block_end s b k).
Proof.
  intros Hd. split; [|intros k; apply block_shape_bounds; exact Hd].
  intros x Hx. destruct (elem_to_block_in Hd Hx) as [Hv Hc]. split; [exact Hv|]. split.
  - apply block_box_spec; assumption.
  - intros k Hk Hb. apply (in_chunk_unique Hd (x := x)). apply block_box_spec; assumption.
Qed.

Lemma chunks_of_region s b off n : dims_ok s b -> valid_region s off n ->
  exists l, (forall fuel, (length l <= fuel)%nat -> blocks_overlapping fuel b off n = Some l) /\
    l <> [] /\ StronglySorted lex_lt l /\ NoDup l /\
    (forall k, In k l <-> overlaps s b off n k) /\
    (forall k, In k l -> valid_chunk s b k).
Proof.
  intros Hd Hr. destruct (blocks_overlapping_spec Hd Hr) as (l & H1 & H2 & H3 & H4 & H5).
  exists l. repeat split; auto; try (apply H5). intros k Hk. apply H5 in Hk.
  apply (overlaps_valid Hk).
Qed.

Lemma chunk_count_exact s b bl : dims_ok s b -> mk_blocking s b = Ok bl ->
  prod (chunk_counts s b) < W64 ->
  exists l, NoDup l /\ (forall k, In k l <-> valid_chunk s b k) /\ lenN l = b_number bl.
Proof.
  intros Hd E Hw. destruct (id_coord_bijection Hd E Hw) as (H1 & H2 & H3).
  rewrite (mk_blocking_ok Hd) in E. injection E as <-. cbn [b_number b_strides] in *.
  destruct (forallb (fun x => negb (x =? 0)) (chunk_counts s b)) eqn:Ep.
  - set (cc := chunk_counts s b) in *.
    assert (Forall (fun x => 0 < x) cc) as Hpos.
    { rewrite forallb_forall in Ep. apply Forall_forall. intros x Hx. specialize (Ep x Hx). lia. }
    exists (box (map (fun _ => 0) cc) (map N.pred cc)).
    assert (length (map (fun _ : N => 0) cc) = length (map N.pred cc)) as Hl by (rewrite !map_length; reflexivity).
    assert (between (map (fun _ => 0) cc) (map N.pred cc) (map (fun _ => 0) cc)) as Hb.
    { unfold between. clear -Hpos. induction Hpos; cbn; [exact I|]. split; [lia|assumption]. }
    split; [apply sorted_NoDup, box_sorted|]. split.
    + intros k. rewrite (box_In k Hl). destruct Hd as [_ Hd].
      rewrite <- (valid_chunk_in_shape k Hd), (map2_blocks_along Hd). fold cc.
      unfold between, in_shape. clear -Hpos. revert k. induction Hpos as [|x l Hx Hpos IH]; intros [|k0 k]; cbn;
        try (split; [tauto|intros HH; inversion HH]).
      * split; [constructor|auto].
      * rewrite IH. split; [intros [? ?]; constructor; [lia|assumption]|intros HH; inversion HH; subst; split; [lia|assumption]].
    + rewrite (box_length_eq Hl Hb). rewrite prodw_small by exact Hw.
      f_equal. clear -Hpos. induction Hpos as [|x l Hx Hpos IH]; cbn; [reflexivity|]. rewrite IH. f_equal. lia.
  - exists []. split; [constructor|].
    assert (prod (chunk_counts s b) = 0) as Hz.
    { clear -Ep. induction (chunk_counts s b) as [|x l IH]; cbn in Ep; [discriminate|].
      cbn [prod]. destruct (N.eqb_spec x 0) as [->|Hx]; cbn in Ep; [lia|]. rewrite IH by exact Ep. lia. }
    split.
    + intros k. split; [intros []|]. intros Hk. destruct (H2 k Hk) as [Hlt _].
      rewrite prodw_small in Hlt by exact Hw. lia.
    + rewrite prodw_small by exact Hw. rewrite Hz. reflexivity.
Qed.
