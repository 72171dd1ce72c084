(** Proofs about direct copies between datasets and arrays in memory. *)
From Coq Require Import ZArith Lia ZifyBool ZifyNat ZifyN.
From Verif Require Import M_Base P_Base M_Key M_Blocking M_View M_Format M_Mode M_Dataset M_Sharded M_Access M_Pool M_Parallel M_Python M_PyDirect
  S_Array S_Grid S_Bytes S_Format S_Dataset S_Access S_Sharded S_Python S_PyDirect
  P_Blocking P_Roi P_View P_Dataset P_Access P_Read P_History P_Sharded P_Parallel P_Python P_Python2 P_Python3.
Import ListNotations.
Local Open Scope list_scope.
Local Open Scope N_scope.

(** * Selections *)
Lemma steps_length c : forall a k, length (np_steps c a k) = c.
Proof. induction c; intros; cbn; auto. Qed.
Lemma steps_nth c : forall a j, (0 <= a)%Z -> (j < c)%nat -> nth j (np_steps c a 1) 0 = Z.to_N a + N.of_nat j.
Proof.
  induction c as [|c IH]; intros a j Ha Hj; [lia|]. cbn [np_steps]. destruct j as [|j]; cbn [nth]; [lia|].
  rewrite IH by lia. lia.
Qed.
Lemma positions_box size s a m : axis_slice s a m -> 0 < m -> a + m <= size ->
  np_positions size s = PyOk (np_steps (N.to_nat m) (Z.of_N a) 1).
Proof.
  intros (E1 & E2 & E3) Hm Ha. unfold np_positions. rewrite E1, E2.
  assert (K : match sl_step s with None => 1%Z | Some k => k end = 1%Z) by (destruct E3 as [-> | ->]; reflexivity).
  rewrite K. cbn [Z.eqb Z.ltb Z.compare]. change (1 =? 0)%Z with false. change (0 <? 1)%Z with true. cbv iota.
  replace (Z.of_N a <? 0)%Z with false by lia. replace (Z.of_N (a + m) <? 0)%Z with false by lia.
  f_equal. f_equal; lia.
Qed.

Definition sel_of (sel : option (list slice)) (n : shape) : list slice := match sel with None => whole n | Some l => l end.
Lemma box_none n : box_selection (Some (whole n)) n (map (fun _ => 0) n) n.
Proof.
  cbn. unfold whole. rewrite !map_length. split; [reflexivity|]. split; [reflexivity|].
  intros k s a m H1 H2 H3. rewrite nth_error_map in H1, H2. rewrite H3 in H1, H2. cbn in H1, H2.
  injection H1 as <-. injection H2 as <-. split; [reflexivity|]. split; [reflexivity|now left].
Qed.
Lemma box_some sel n off cnt : box_selection sel n off cnt -> box_selection (Some (sel_of sel n)) n off cnt.
Proof. destruct sel; [auto|]. intros [-> ->]. apply box_none. Qed.

Lemma axes_box n : forall sel off cnt, box_selection (Some sel) n off cnt -> valid_region n off cnt ->
  exists pos, np_axes_positions n sel = PyOk pos /\ map lenN pos = cnt /\
    forall i, in_shape cnt i -> np_at pos i = vadd off i.
Proof.
  induction n as [|m n IH]; intros sel off cnt (L1 & L2 & HS) HV.
  - destruct off as [|o off]; destruct cnt as [|c cnt]; cbn in HV; try tauto.
    destruct sel; [|discriminate]. exists []. split; [reflexivity|]. split; [reflexivity|].
    intros i Hi. inversion Hi; subst. reflexivity.
  - destruct off as [|o off]; destruct cnt as [|c cnt]; cbn in HV; try tauto.
    destruct sel as [|s sel]; [discriminate|]. destruct HV as [HV1 HV2].
    destruct (IH sel off cnt) as (pos & E1 & E2 & E3).
    { split; [cbn in L1; lia|]. split; [cbn in L2; lia|]. intros k s' a' m' H1 H2 H3. exact (HS (S k) s' a' m' H1 H2 H3). }
    { exact HV2. }
    assert (AS : axis_slice s o c) by (apply (HS 0%nat); reflexivity).
    cbn [np_axes_positions]. rewrite (positions_box AS) by lia. cbn [pbind]. rewrite E1. cbn [pbind].
    eexists. split; [reflexivity|]. split.
    + cbn [map]. rewrite E2. f_equal. unfold lenN. rewrite steps_length. lia.
    + intros i Hi. inversion Hi as [|x ? i' ? Hx Hi']; subst. cbn [np_at map2 vadd]. fold (np_at pos i'). rewrite E3 by exact Hi'.
      f_equal. rewrite steps_nth by lia. lia.
Qed.

Lemma region_shift n off cnt i : valid_region n off cnt -> in_shape cnt i -> in_shape n (vadd off i).
Proof.
  revert off cnt i. induction n as [|m n IH]; intros [|o off] [|c cnt] i HV Hi; cbn in HV; try tauto.
  - inversion Hi; subst. constructor.
  - inversion Hi as [|x ? i' ? Hx Hi']; subst. destruct HV as [HV1 HV2]. cbn. constructor; [lia|]. eapply IH; eauto.
Qed.
Lemma addr_c n x : prod n < W64 -> in_shape n x -> np_addr n x = N.to_nat (rowmajor n x).
Proof.
  intros HP Hx. unfold np_addr. f_equal. rewrite flat_offset_lin. rewrite <- (c_view_addr HP Hx). reflexivity.
Qed.

(** * Elements in C order *)
Lemma rangeN_nth c : forall a j, (j < c)%nat -> nth_error (rangeN a c) j = Some (a + N.of_nat j).
Proof.
  induction c as [|c IH]; intros a j Hj; [lia|]. cbn [rangeN]. destruct j as [|j]; cbn [nth_error]; [f_equal; lia|].
  rewrite IH by lia. f_equal. lia.
Qed.
Lemma flat_nth A B (f : A -> list B) L l : (forall x, In x l -> length (f x) = L) -> forall j k x, nth_error l j = Some x -> (k < L)%nat ->
  nth_error (flat_map f l) (j * L + k) = nth_error (f x) k.
Proof.
  induction l as [|y l IH]; intros HL j k x Hj Hk; [destruct j; discriminate|]. cbn [flat_map].
  destruct j as [|j]; cbn [nth_error] in Hj.
  - injection Hj as ->. cbn. rewrite nth_error_app1; [reflexivity|]. rewrite HL by now left. exact Hk.
  - assert (HY : length (f y) = L) by (apply HL; now left). rewrite nth_error_app2 by nia. rewrite HY. replace (S j * L + k - L)%nat with (j * L + k)%nat by nia.
    apply IH; auto. intros z Hz. apply HL. now right.
Qed.
Lemma coords_nth s : forall c, in_shape s c -> nth_error (coords s) (N.to_nat (rowmajor s c)) = Some c.
Proof.
  induction s as [|n s IH]; intros c Hc; inversion Hc as [|x ? c' ? Hx Hc']; subst; [reflexivity|].
  cbn [coords rowmajor].
  pose proof (rowmajor_lt Hc') as HL. pose proof (coords_length s) as CL. unfold lenN in CL.
  replace (N.to_nat (x * prod s + rowmajor s c')) with (N.to_nat x * length (coords s) + N.to_nat (rowmajor s c'))%nat by nia.
  rewrite (@flat_nth _ _ _ (length (coords s)) _) with (x := x).
  - rewrite nth_error_map, (IH c' Hc'). reflexivity.
  - intros z _. apply map_length.
  - rewrite rangeN_nth by lia. f_equal. lia.
  - lia.
Qed.
Lemma indices_nth s c : in_shape s c -> nth_error (indices s) (N.to_nat (rowmajor s c)) = Some c.
Proof. rewrite indices_coords. apply coords_nth. Qed.
Lemma indices_in s c : In c (indices s) <-> in_shape s c.
Proof. rewrite indices_coords. apply coords_In. Qed.
Lemma indices_len s : lenN (indices s) = prod s.
Proof. rewrite indices_coords. apply coords_length. Qed.

(** * Assigning a selection *)
Lemma fold_set_length A (addr : shape -> nat) (val : shape -> A) l : forall d : list A,
  length (fold_left (fun d i => set_nth (addr i) d (val i)) l d) = length d.
Proof. induction l as [|i l IH]; intros d; [reflexivity|]. cbn [fold_left]. now rewrite IH, set_nth_length. Qed.
Lemma fold_set_other A (addr : shape -> nat) (val : shape -> A) l : forall (d : list A) k, (forall i, In i l -> addr i <> k) ->
  nth_error (fold_left (fun d i => set_nth (addr i) d (val i)) l d) k = nth_error d k.
Proof.
  induction l as [|i l IH]; intros d k H; [reflexivity|]. cbn [fold_left]. rewrite IH by (intros; apply H; now right).
  apply set_nth_other. intros E. apply (H i); [now left|congruence].
Qed.
Lemma fold_set_same A (addr : shape -> nat) (val : shape -> A) l : forall (d : list A) i, NoDup l ->
  (forall i j, In i l -> In j l -> addr i = addr j -> i = j) -> (forall i, In i l -> addr i < length d)%nat -> In i l ->
  nth_error (fold_left (fun d i => set_nth (addr i) d (val i)) l d) (addr i) = Some (val i).
Proof.
  induction l as [|j l IH]; intros d i HN HI HL Hi; [destruct Hi|]. cbn [fold_left]. inversion HN as [|? ? N1 N2]; subst.
  destruct Hi as [->|Hi].
  - rewrite fold_set_other.
    + apply set_nth_same. apply HL. now left.
    + intros k Hk E. apply N1. rewrite <- (HI k i); auto; [now right|now left].
  - apply IH; auto.
    + intros a b Ha Hb. apply HI; now right.
    + intros a Ha. rewrite set_nth_length. apply HL. now right.
Qed.

Lemma broadcasts_refl m : np_broadcasts m m = true.
Proof. induction m as [|x m IH]; [reflexivity|]. cbn. rewrite N.eqb_refl, IH. reflexivity. Qed.
Lemma source_refl m : forall i, in_shape m i -> np_source m i = i.
Proof.
  induction m as [|x m IH]; intros i Hi; inversion Hi as [|y ? i' ? Hy Hi']; subst; [reflexivity|].
  cbn. rewrite IH by exact Hi'. f_equal. destruct (x =? 1) eqn:E; lia.
Qed.
Lemma in_shape_rev m i : in_shape m i -> in_shape (rev m) (rev i).
Proof.
  unfold in_shape. induction 1 as [|x y m i H F IH]; [constructor|]. cbn. apply Forall2_app; [exact IH|]. now repeat constructor.
Qed.

Lemma getN_nth A (l : list A) k x : getN l k = Ok x <-> nth_error l (N.to_nat k) = Some x.
Proof. apply getN_ok. Qed.
Lemma vadd_inj off : forall i j, length i = length off -> length j = length off -> vadd off i = vadd off j -> i = j.
Proof.
  induction off as [|o off IH]; intros [|x i] [|y j] L1 L2 E; cbn in *; try discriminate; [reflexivity|].
  injection E as E1 E2. f_equal; [lia|]. apply IH; auto; lia.
Qed.

Lemma set_box n dest sel off cnt v : prod n < W64 -> prod cnt < W64 -> lenN dest = prod n -> box_selection (Some sel) n off cnt ->
  valid_region n off cnt -> lenN v = prod cnt ->
  exists dest', np_set n dest sel cnt v = PyOk dest' /\ lenN dest' = lenN dest /\
    (forall i, in_shape cnt i -> getN dest' (rowmajor n (vadd off i)) = getN v (rowmajor cnt i)) /\
    (forall x, in_shape n x -> in_boxb off cnt x = false -> getN dest' (rowmajor n x) = getN dest (rowmajor n x)).
Proof.
  intros HP HPc HL HS HV Hv. destruct (axes_box HS HV) as (pos & E1 & E2 & E3).
  unfold np_set. rewrite E1. cbn [pbind]. rewrite E2, broadcasts_refl. eexists. split; [reflexivity|].
  set (addr := fun i => np_addr n (np_at pos i)). set (val := fun i => nth (np_addr cnt (rev (np_source (rev cnt) (rev i)))) v []).
  assert (LO : length cnt = length off) by (destruct HS as (_ & L & _); exact L).
  assert (LI : forall i, in_shape cnt i -> length i = length off).
  { intros i Hi. rewrite <- LO. exact (in_shape_len Hi). }
  assert (A : forall i, in_shape cnt i -> addr i = N.to_nat (rowmajor n (vadd off i))).
  { intros i Hi. unfold addr. rewrite (E3 i Hi). apply addr_c; [exact HP|]. eapply region_shift; eauto. }
  assert (B : forall i, in_shape cnt i -> nth_error v (N.to_nat (rowmajor cnt i)) = Some (val i)).
  { intros i Hi. unfold val. rewrite source_refl by (apply in_shape_rev; exact Hi). rewrite rev_involutive, addr_c by auto.
    apply nth_error_nth'. pose proof (rowmajor_lt Hi). unfold lenN in Hv. lia. }
  split; [|split].
  - unfold lenN. f_equal. apply (fold_set_length addr val).
  - intros i Hi.
    assert (R : nth_error (fold_left (fun d i => set_nth (addr i) d (val i)) (indices cnt) dest) (addr i) = Some (val i)).
    { apply fold_set_same.
      - rewrite indices_coords. apply coords_NoDup.
      - intros j k Hj Hk E. apply indices_in in Hj, Hk. rewrite (A j Hj), (A k Hk) in E.
        apply N2Nat.inj in E. apply rowmajor_inj in E; [|eapply region_shift; eauto|eapply region_shift; eauto]. eapply vadd_inj; [| |exact E]; auto.
      - intros j Hj. apply indices_in in Hj. rewrite (A j Hj). pose proof (rowmajor_lt (region_shift HV Hj)). unfold lenN in HL. lia.
      - now apply indices_in. }
    rewrite (A i Hi) in R. transitivity (Ok (val i)); [apply getN_nth; exact R|]. symmetry. apply getN_nth. apply B. exact Hi.
  - intros x Hx Hb. assert (X : forall y, getN (fold_left (fun d i => set_nth (addr i) d (val i)) (indices cnt) dest) (rowmajor n x) = Ok y <-> getN dest (rowmajor n x) = Ok y).
    { intros y. rewrite !getN_nth. rewrite (@fold_set_other _ addr val); [reflexivity|].
    intros i Hi E. apply indices_in in Hi. rewrite (A i Hi) in E. apply N2Nat.inj in E.
    apply rowmajor_inj in E; [|eapply region_shift; eauto|exact Hx]. subst x.
    assert (in_boxb off cnt (vadd off i) = true); [|congruence]. apply in_boxb_spec. apply sub_in_box; [lia|exact Hi]. }
    destruct (@getN_in _ dest (rowmajor n x)) as [y Ey]; [rewrite HL; now apply rowmajor_lt|]. rewrite Ey. now apply X.
Qed.

Lemma get_box n data sel off cnt : prod n < W64 -> lenN data = prod n -> box_selection (Some sel) n off cnt -> valid_region n off cnt ->
  exists v, np_get n data sel = PyOk (cnt, v) /\ lenN v = prod cnt /\
    forall i, in_shape cnt i -> getN v (rowmajor cnt i) = getN data (rowmajor n (vadd off i)).
Proof.
  intros HP HL HS HV. destruct (axes_box HS HV) as (pos & E1 & E2 & E3).
  unfold np_get. rewrite E1. cbn [pbind]. rewrite E2. eexists. split; [reflexivity|]. split.
  - unfold lenN. rewrite map_length. apply indices_len.
  - intros i Hi. assert (Hx := region_shift HV Hi).
    destruct (@getN_in _ data (rowmajor n (vadd off i))) as [c Ec]; [rewrite HL; now apply rowmajor_lt|]. rewrite Ec. apply getN_nth.
    rewrite nth_error_map, (indices_nth Hi). cbn [option_map]. rewrite (E3 i Hi), addr_c by auto. f_equal.
    apply getN_nth in Ec. now apply nth_error_nth.
Qed.

(** * The two calls *)
Lemma sel_starts l : forall off cnt n, box_selection (Some l) n off cnt -> map sl_start l = map Some (map Z.of_N off).
Proof.
  induction l as [|s l IH]; intros [|o off] [|c cnt] n (L1 & L2 & H); try discriminate; [reflexivity|].
  cbn. f_equal; [apply (H 0%nat s o c); reflexivity|]. apply (IH off cnt n). split; [cbn in L1; lia|]. split; [cbn in L2; lia|].
  intros k. apply (H (S k)).
Qed.
Lemma sel_stops l : forall off cnt n, box_selection (Some l) n off cnt -> map sl_stop l = map Some (map Z.of_N (vadd off cnt)).
Proof.
  induction l as [|s l IH]; intros [|o off] [|c cnt] n (L1 & L2 & H); try discriminate; [reflexivity|].
  cbn. f_equal; [apply (H 0%nat s o c); reflexivity|]. apply (IH off cnt n). split; [cbn in L1; lia|]. split; [cbn in L2; lia|].
  intros k. apply (H (S k)).
Qed.
Lemma all_numbers_ok l : all_numbers (map Some l) = PyOk l.
Proof. induction l as [|x l IH]; [reflexivity|]. cbn. now rewrite IH. Qed.
Lemma sizes_of off : forall cnt, length cnt = length off ->
  map2 (fun a b => (b - a)%Z) (map Z.of_N off) (map Z.of_N (vadd off cnt)) = map Z.of_N cnt.
Proof.
  induction off as [|o off IH]; intros [|c cnt] L; try discriminate; [reflexivity|]. cbn. f_equal; [lia|]. apply IH. cbn in L; lia.
Qed.

Lemma read_subarray_box p st a fresh off cnt : py_dataset_ok p -> stores p st a -> region_ok (pd_base p) off cnt -> prod cnt < W64 ->
  lenN (fresh (prod cnt)) = prod cnt ->
  exists data, py_read_subarray p fresh (map Z.of_N off) (map Z.of_N (vadd off cnt)) st = PyOk (PyArray cnt data) /\ lenN data = prod cnt /\
    forall i, in_shape cnt i -> exists c, getN data (rowmajor cnt i) = Ok c /\ reads_as (pd_base p) c (a (vadd off i)).
Proof.
  intros K S R W F. assert (OK := ok_base p K).
  destruct (@stores_read p st a cnt off (fresh (prod cnt)) K S R W F) as (out & E & L & G).
  assert (LO : length off = length cnt) by (destruct R as [R _]; unfold valid_region in R; apply all3_length in R; lia).
  exists out. split; [|split; [exact L|exact G]]. unfold py_read_subarray. rewrite sizes_of by lia.
  rewrite none_neg, map_id_N. change (fold_left N.mul cnt 1) with (fold_left N.mul cnt 1).
  assert (FP : fold_left N.mul cnt 1 = prod cnt).
  { clear. assert (H : forall l x, fold_left N.mul l x = x * prod l); [|rewrite H; lia].
    induction l as [|y l IH]; intros x; cbn; [lia|]. rewrite IH. lia. }
  rewrite FP. unfold py_read_view. rewrite to_sizes_ok.
  - cbn [pbind]. rewrite take_sizes_ok by exact LO. cbn [bind]. rewrite E. reflexivity.
  - destruct R as [R _]. assert (D := dims_small (proj2 (do_dims OK))). unfold valid_region in R.
    clear -R D. revert off cnt R. induction D as [|x sh X D IH]; intros [|o off] [|k n] R; cbn in R; try contradiction; constructor.
    + lia.
    + eapply IH, R.
Qed.

Theorem read_direct_spec p st a fresh n dest ssel dsel off off' cnt : py_dataset_ok p -> stores p st a ->
  (forall k, lenN (fresh k) = k) -> lenN dest = prod n -> prod n < W64 -> prod cnt < W64 ->
  box_selection ssel (d_shape (pd_base p)) off cnt -> region_ok (pd_base p) off cnt ->
  box_selection dsel n off' cnt -> valid_region n off' cnt ->
  exists dest', py_read_direct p fresh n dest ssel dsel st = PyOk dest' /\ copied_into (pd_base p) a off n off' cnt dest dest'.
Proof.
  intros K S F L W Wc HS R HD V. apply box_some in HS, HD.
  destruct (@read_subarray_box p st a fresh off cnt K S R Wc (F _)) as (data & E & Ld & G).
  unfold py_read_direct. fold (sel_of ssel (d_shape (pd_base p))). fold (sel_of dsel n).
  rewrite (sel_starts HS), (sel_stops HS), !all_numbers_ok. cbn [pbind]. rewrite E. cbn [pbind].
  destruct (set_box W Wc L HD V Ld) as (dest' & E' & L' & G1 & G2).
  exists dest'. split; [exact E'|]. split; [exact L'|]. intros x Hx. destruct (in_boxb off' cnt x) eqn:B.
  - assert (Hi := box_sub B). destruct (G _ Hi) as (c & C1 & C2). exists c. split; [|exact C2].
    rewrite <- C1, <- (G1 _ Hi). f_equal. f_equal. apply in_boxb_spec in B. destruct (in_box_sub B) as (i & Ii & ->).
    rewrite vsub_vadd; [reflexivity|]. destruct (in_box_length B) as [L1 L2]. rewrite (in_shape_len Ii). lia.
  - rewrite (G2 x Hx B). destruct (@getN_in _ dest (rowmajor n x)) as [c Ec]; [|exists c; now split]. rewrite L. now apply rowmajor_lt.
Qed.

Theorem write_direct_spec p st a n source ssel dsel off off' cnt : py_dataset_ok p -> can_write (d_mode (pd_base p)) = true ->
  stores p st a -> array_data (pd_base p) n source -> prod cnt < W64 ->
  box_selection ssel n off' cnt -> valid_region n off' cnt ->
  box_selection dsel (d_shape (pd_base p)) off cnt -> region_ok (pd_base p) off cnt ->
  exists st', py_write_direct p n source ssel dsel st = (st', PyOk tt) /\
    stores p st' (np_assign off cnt (fun i => cell_at source (rowmajor n (vadd off' i))) a).
Proof.
  intros K WR S [W [L B]] Wc HS V HD R. apply box_some in HS, HD.
  destruct (get_box W L HS V) as (v & E & Lv & G).
  assert (BV : buffer_of (t_width (d_type (pd_base p))) (prod cnt) v).
  { split; [exact Lv|]. apply Forall_forall. intros c Hc. apply In_nth_error in Hc. destruct Hc as [k Hk].
    assert (Hlt : N.of_nat k < prod cnt).
    { assert (k < length v)%nat by (apply nth_error_Some; congruence). unfold lenN in Lv. lia. }
    destruct (rowmajor_onto Hlt Wc) as (i & Ii & Ei). assert (Gi := G i Ii). rewrite Ei in Gi.
    assert (Gk : getN v (N.of_nat k) = Ok c) by (apply getN_nth; rewrite Nat2N.id; exact Hk).
    rewrite Gk in Gi. symmetry in Gi. apply getN_nth in Gi. apply nth_error_In in Gi. rewrite Forall_forall in B. now apply B. }
  destruct (@write_view_spec p st a off cnt v (map sl_start (sel_of dsel (d_shape (pd_base p)))) K WR S R Wc BV (sel_starts HD)) as (st' & E' & S').
  exists st'. unfold py_write_direct. fold (sel_of dsel (d_shape (pd_base p))). fold (sel_of ssel n). rewrite E. split; [exact E'|].
  eapply stores_ext; [|exact S']. intros x _. unfold np_assign. destruct (in_boxb off cnt x) eqn:Bx; [|reflexivity].
  assert (Hi := box_sub Bx). assert (Gi := G _ Hi). assert (Hx := rowmajor_lt (region_shift V Hi)).
  destruct (@getN_in _ source (rowmajor n (vadd off' (vsub x off)))) as [c Ec]; [lia|].
  rewrite Ec in Gi. apply getN_nth in Gi, Ec. unfold cell_at. now rewrite (nth_error_nth _ _ [] Gi), (nth_error_nth _ _ [] Ec).
Qed.

(** * Histories *)
Lemma direct_ops_spec p ops : py_dataset_ok p -> can_write (d_mode (pd_base p)) = true -> Forall (direct_op_ok (pd_base p)) ops ->
  forall st a, stores p st a -> exists st', run_direct_ops p ops st = (st', PyOk tt) /\ stores p st' (direct_applies (pd_base p) ops a).
Proof.
  intros K W. induction 1 as [|o ops O _ IH]; intros st a S; [exists st; now split|]. cbn [run_direct_ops direct_applies].
  destruct o as [o|n source ssel dsel off' off cnt].
  - destruct (@op_spec p o st a K W O S) as (st1 & E & S1). cbn [run_direct_op]. rewrite E. now apply IH.
  - destruct O as (A & Wc & H1 & H2 & H3 & H4).
    destruct (@write_direct_spec p st a n source ssel dsel off off' cnt K W S A Wc H1 H2 H3 H4) as (st1 & E & S1).
    cbn [run_direct_op]. rewrite E. now apply IH.
Qed.

Theorem direct_history p ops st : py_dataset_ok p -> can_write (d_mode (pd_base p)) = true ->
  Forall (direct_op_ok (pd_base p)) ops -> new_dataset p st ->
  exists st', run_direct_ops p ops st = (st', PyOk tt) /\
    let a := direct_applies (pd_base p) ops (fun _ => d_fill (pd_base p)) in
    (forall ix ps fresh, np_select (d_shape (pd_base p)) ix = Some ps -> regular_index (d_shape (pd_base p)) ix ->
      small_request (d_chunks (pd_base p)) (np_count ps) -> prod (np_count ps) < W64 -> (forall n, lenN (fresh n) = n) ->
      exists v, py_getitem p fresh ix st' = PyOk v /\ np_value (pd_base p) a ps v) /\
    forall fresh n dest ssel dsel off off' cnt,
      (forall k, lenN (fresh k) = k) -> lenN dest = prod n -> prod n < W64 -> prod cnt < W64 ->
      box_selection ssel (d_shape (pd_base p)) off cnt -> region_ok (pd_base p) off cnt ->
      box_selection dsel n off' cnt -> valid_region n off' cnt ->
      exists dest', py_read_direct p fresh n dest ssel dsel st' = PyOk dest' /\ copied_into (pd_base p) a off n off' cnt dest dest'.
Proof.
  intros K W O N. destruct (@direct_ops_spec p ops K W O st _ (stores_new K N)) as [st' [E S]]. exists st'. split; [exact E|]. cbv zeta. split.
  - intros. eapply getitem_spec; eauto.
  - intros. eapply read_direct_spec; eauto.
Qed.

(** * Boxes of different shapes *)
Lemma broadcasts_fit m : forall n, length m = length n -> np_broadcasts m n = true -> Forall2 (fun x y => x = y \/ x = 1) m n.
Proof.
  induction m as [|x m IH]; intros [|y n] L H; try discriminate; [constructor|]. cbn in H. apply andb_prop in H. destruct H as [H1 H2]. constructor; [lia|]. apply IH; [cbn in L; lia|exact H2].
Qed.
Lemma Forall2_rev' A B (R : A -> B -> Prop) m n : Forall2 R m n -> Forall2 R (rev m) (rev n).
Proof. induction 1 as [|x y m n H F IH]; [constructor|]. cbn. apply Forall2_app; [exact IH|]. now repeat constructor. Qed.
Lemma Forall2_nth A B (R : A -> B -> Prop) m n : Forall2 R m n -> forall k x y, nth_error m k = Some x -> nth_error n k = Some y -> R x y.
Proof.
  induction 1 as [|x y m n H F IH]; intros [|k] a b H1 H2; try discriminate.
  - cbn in *. congruence.
  - exact (IH k a b H1 H2).
Qed.
Lemma clash_broadcast cnt cnt' : shapes_clash cnt cnt' -> np_broadcasts (rev cnt) (rev cnt') = false.
Proof.
  intros (L & k & x & y & H1 & H2 & H3 & H4). destruct (np_broadcasts (rev cnt) (rev cnt')) eqn:E; [|reflexivity].
  apply broadcasts_fit in E; [|now rewrite !rev_length]. apply Forall2_rev' in E. rewrite !rev_involutive in E.
  destruct (Forall2_nth E H1 H2); contradiction.
Qed.
Theorem direct_clash p ops st : py_dataset_ok p -> can_write (d_mode (pd_base p)) = true ->
  Forall (direct_op_ok (pd_base p)) ops -> new_dataset p st ->
  exists st', run_direct_ops p ops st = (st', PyOk tt) /\
    forall fresh n dest ssel dsel off off' cnt cnt',
      (forall k, lenN (fresh k) = k) -> prod cnt < W64 ->
      box_selection ssel (d_shape (pd_base p)) off cnt -> region_ok (pd_base p) off cnt ->
      box_selection dsel n off' cnt' -> valid_region n off' cnt' -> shapes_clash cnt cnt' ->
      py_read_direct p fresh n dest ssel dsel st' = PyRaise ValueError.
Proof.
  intros K W O N. destruct (@direct_ops_spec p ops K W O st _ (stores_new K N)) as [st' [E S]]. exists st'. split; [exact E|].
  intros fresh n dest ssel dsel off off' cnt cnt' F Wc HS R HD V C. apply box_some in HS, HD.
  destruct (@read_subarray_box p st' _ fresh off cnt K S R Wc (F _)) as (data & E' & Ld & G).
  unfold py_read_direct. fold (sel_of ssel (d_shape (pd_base p))). fold (sel_of dsel n).
  rewrite (sel_starts HS), (sel_stops HS), !all_numbers_ok. cbn [pbind]. rewrite E'. cbn [pbind].
  destruct (axes_box HD V) as (pos & E1 & E2 & E3). unfold np_set. rewrite E1. cbn [pbind]. rewrite E2, (clash_broadcast C). reflexivity.
Qed.
