(** Proofs about the chunk grid arithmetic. *)
From Coq Require Import Sorted.
From Verif Require Import M_Base S_Array S_Grid M_Blocking P_Base.

(** ** vectors *)
Lemma all2_length P a b : all2 P a b -> length a = length b.
Proof. revert b; induction a; intros [|y b]; cbn; intuition. Qed.
Lemma all3_length P a b c : all3 P a b c -> length a = length b /\ length a = length c.
Proof.
  revert b c; induction a as [|x a IH]; intros [|y b] [|z c]; cbn; try tauto.
  intros [_ H]. apply IH in H. lia.
Qed.

(** ** ranges and boxes *)
Fixpoint rangeN (a : N) (n : nat) : list N :=
  match n with O => [] | S m => a :: rangeN (a + 1) m end.
Definition range (l h : N) : list N := rangeN l (N.to_nat (h + 1 - l)).

Lemma rangeN_In a n x : In x (rangeN a n) <-> a <= x /\ x < a + N.of_nat n.
Proof.
  revert a; induction n as [|n IH]; intros a; cbn [rangeN In]; [lia|]. rewrite IH. lia.
Qed.
Lemma range_In l h x : In x (range l h) <-> l <= x /\ x <= h.
Proof. unfold range. rewrite rangeN_In. lia. Qed.
Lemma range_cons l h : l <= h -> range l h = l :: range (l + 1) h.
Proof.
  intros H. unfold range.
  replace (N.to_nat (h + 1 - l)) with (S (N.to_nat (h + 1 - (l + 1)))) by lia. reflexivity.
Qed.
Lemma range_empty l h : h < l -> range l h = [].
Proof. intros H. unfold range. replace (h + 1 - l) with 0 by lia. reflexivity. Qed.
Lemma rangeN_length a n : length (rangeN a n) = n.
Proof. revert a; induction n; intros; cbn; auto. Qed.
Lemma rangeN_sorted a n : StronglySorted N.lt (rangeN a n).
Proof.
  revert a; induction n as [|n IH]; intros a; cbn; constructor; auto.
  apply Forall_forall. intros x Hx. apply rangeN_In in Hx. lia.
Qed.

Fixpoint box (lo hi : list N) : list (list N) :=
  match lo, hi with
  | l :: ls, h :: hs => flat_map (fun x => map (cons x) (box ls hs)) (range l h)
  | _, _ => [[]]
  end.

Definition between (lo hi p : list N) : Prop := all3 (fun l h p => l <= p /\ p <= h) lo hi p.

Lemma box_In lo hi p : length lo = length hi -> In p (box lo hi) <-> between lo hi p.
Proof.
  revert hi p; induction lo as [|l ls IH]; intros [|h hs] p Hl; cbn in Hl; try discriminate.
  - unfold between. destruct p; cbn; intuition congruence.
  - cbn [box]. rewrite in_flat_map. split.
    + intros (x & Hx & Hp). apply in_map_iff in Hp as (q & <- & Hq).
      apply range_In in Hx. apply IH in Hq; [|congruence]. unfold between in *; cbn; auto.
    + unfold between. destruct p as [|x q]; cbn; [tauto|]. intros [Hx Hq].
      exists x. rewrite range_In. split; [lia|]. apply in_map. apply IH; [congruence|exact Hq].
Qed.

Lemma box_length_eq lo hi : length lo = length hi -> between lo hi lo ->
  lenN (box lo hi) = prod (map2 (fun l h => h + 1 - l) lo hi).
Proof.
  revert hi; induction lo as [|l ls IH]; intros [|h hs] Hl Hb; cbn in Hl; try discriminate.
  - reflexivity.
  - unfold between in Hb. cbn in Hb. destruct Hb as [Hb1 Hb2]. injection Hl as Hl.
    cbn [box map2 prod]. specialize (IH hs Hl Hb2). rewrite <- IH.
    unfold range. remember (N.to_nat (h + 1 - l)) as n eqn:En.
    replace (h + 1 - l) with (N.of_nat n) by lia. clear En Hb1.
    revert l; induction n as [|n IHn]; intros l; cbn [rangeN flat_map]; [reflexivity|].
    rewrite lenN_app, IHn. unfold lenN at 1. rewrite map_length. fold (lenN (box ls hs)). lia.
Qed.

Lemma StronglySorted_app A (R : A -> A -> Prop) l1 l2 :
  StronglySorted R l1 -> StronglySorted R l2 ->
  (forall x y, In x l1 -> In y l2 -> R x y) -> StronglySorted R (l1 ++ l2).
Proof.
  induction 1 as [|a l H1 IH H2]; cbn; auto. intros Hs Hc. constructor.
  - apply IH; [exact Hs|]. intros; apply Hc; cbn; auto.
  - apply Forall_app; split; auto. apply Forall_forall. intros y Hy. apply Hc; cbn; auto.
Qed.
Lemma sorted_map_cons x l : StronglySorted lex_lt l -> StronglySorted lex_lt (map (cons x) l).
Proof.
  induction 1 as [|a l H1 IH H2]; cbn; constructor; auto.
  apply Forall_forall. intros y Hy. apply in_map_iff in Hy as (z & <- & Hz).
  rewrite Forall_forall in H2. constructor 2. auto.
Qed.

Lemma box_sorted lo hi : StronglySorted lex_lt (box lo hi).
Proof.
  revert hi; induction lo as [|l ls IH]; intros [|h hs]; cbn [box];
    try (repeat constructor; fail).
  unfold range. generalize (N.to_nat (h + 1 - l)) as n. intros n.
  revert l; induction n as [|n IHn]; intros l; cbn [rangeN flat_map]; [constructor|].
  apply StronglySorted_app; [apply sorted_map_cons; auto|apply IHn|].
  intros x y Hx Hy. apply in_map_iff in Hx as (x' & <- & _).
  apply in_flat_map in Hy as (z & Hz & Hy). apply in_map_iff in Hy as (y' & <- & _).
  apply rangeN_In in Hz. constructor 1. lia.
Qed.

Lemma lex_lt_irrefl x : ~ lex_lt x x.
Proof. induction x; intros H; inversion H; subst; [lia|auto]. Qed.
Lemma sorted_NoDup l : StronglySorted lex_lt l -> NoDup l.
Proof.
  induction 1 as [|a l H1 IH H2]; constructor; auto.
  intros Hin. rewrite Forall_forall in H2. apply (lex_lt_irrefl (H2 _ Hin)).
Qed.

(** ** the odometer enumerates the box *)
Fixpoint from (lo hi pos : list N) : list (list N) :=
  match lo, hi, pos with
  | l :: ls, h :: hs, p :: ps =>
      map (cons p) (from ls hs ps) ++
      flat_map (fun x => map (cons x) (box ls hs)) (range (p + 1) h)
  | _, _, _ => [[]]
  end.

Lemma from_lo lo hi : between lo hi lo -> from lo hi lo = box lo hi.
Proof.
  unfold between. revert hi; induction lo as [|l ls IH]; intros [|h hs] Hb; cbn in Hb; try contradiction.
  - reflexivity.
  - destruct Hb as [Hb1 Hb2]. cbn [from box]. rewrite (range_cons (l := l)) by lia.
    cbn [flat_map]. rewrite IH by exact Hb2. reflexivity.
Qed.

Definition below_wrap (hi : list N) : Prop := Forall (fun h => h + 1 < W64) hi.

Lemma between_lo lo hi p : between lo hi p -> between lo hi lo.
Proof.
  unfold between. revert hi p; induction lo as [|l ls IH]; intros [|h hs] [|p ps]; cbn; try tauto.
  intros [H1 H2]. split; [lia|eauto].
Qed.

Lemma odo_next_spec lo hi pos : below_wrap hi -> between lo hi pos ->
  let (pos', stop) := odo_next lo hi pos in
  (stop = true -> pos' = lo /\ from lo hi pos = [pos]) /\
  (stop = false -> between lo hi pos' /\ from lo hi pos = pos :: from lo hi pos').
Proof.
  unfold between. intros Hw. revert lo pos. induction Hw as [|h hs Hh Hw IH];
    intros [|l ls] [|p ps] Hb; cbn in Hb; try contradiction.
  - cbn. split; [auto|discriminate].
  - destruct Hb as [Hp Hps]. specialize (IH ls ps Hps). cbn [odo_next].
    destruct (odo_next ls hs ps) as [ps' c]. destruct IH as [IH1 IH2].
    destruct c.
    + destruct (IH1 eq_refl) as [-> E]. rewrite addw_small by lia.
      destruct (N.leb_spec (p + 1) h) as [Hle|Hgt].
      * split; [discriminate|]. intros _. split.
        -- cbn. split; [lia|]. apply (@between_lo ls hs ps Hps).
        -- cbn [from]. rewrite E. rewrite (range_cons Hle). cbn [map app flat_map].
           rewrite from_lo by apply (@between_lo ls hs ps Hps).
           reflexivity.
      * split; [|discriminate]. intros _. split; [reflexivity|].
        cbn [from]. rewrite E, range_empty by lia. reflexivity.
    + destruct (IH2 eq_refl) as [Hb' E]. split; [discriminate|]. intros _. split.
      * cbn. split; [lia|exact Hb'].
      * cbn [from]. rewrite E. reflexivity.
Qed.

Lemma grid_loop_spec lo hi : below_wrap hi -> forall fuel pos, between lo hi pos ->
  (length (from lo hi pos) <= fuel)%nat -> grid_loop fuel lo hi pos = Some (from lo hi pos).
Proof.
  intros Hw fuel; induction fuel as [|f IH]; intros pos Hb Hf.
  - pose proof (odo_next_spec Hw Hb) as H. destruct (odo_next lo hi pos) as [pos' c].
    destruct H as [H1 H2]. destruct c.
    + destruct (H1 eq_refl) as [_ E]. rewrite E in Hf. cbn in Hf; lia.
    + destruct (H2 eq_refl) as [_ E]. rewrite E in Hf. cbn in Hf; lia.
  - cbn [grid_loop]. pose proof (odo_next_spec Hw Hb) as H.
    destruct (odo_next lo hi pos) as [pos' c]. destruct H as [H1 H2]. destruct c.
    + destruct (H1 eq_refl) as [_ E]. rewrite E. reflexivity.
    + destruct (H2 eq_refl) as [Hb' E]. rewrite E in Hf. cbn in Hf.
      rewrite IH; [|exact Hb'|lia]. rewrite E. reflexivity.
Qed.

Lemma make_grid_spec lo hi fuel : lo <> [] -> below_wrap hi -> between lo hi lo ->
  (length (box lo hi) <= fuel)%nat -> make_grid fuel lo hi = Some (box lo hi).
Proof.
  intros Hn Hw Hb Hf. unfold make_grid. destruct lo as [|l ls]; [congruence|].
  rewrite grid_loop_spec; auto; rewrite from_lo; auto.
Qed.

(** ** one axis *)
Lemma div_lt_iff x b k : 0 < b -> x / b = k <-> k * b <= x /\ x < (k + 1) * b.
Proof.
  intros Hb. split.
  - intros <-. pose proof (N.div_mod x b ltac:(lia)). pose proof (N.mod_lt x b ltac:(lia)). nia.
  - intros [H1 H2]. symmetry. apply (N.div_unique x b k (x - k * b)); nia.
Qed.

Lemma max_block_spec b off n s : 0 < b -> 0 < n -> off + n <= s -> s + b <= W64 ->
  max_block b off n = (off + n - 1) / b.
Proof.
  intros Hb Hn Hs Hw. unfold max_block. rewrite addw_small by lia.
  set (e := off + n) in *. assert (0 < e) by (unfold e; lia).
  pose proof (N.div_mod e b ltac:(lia)) as Hdm. pose proof (N.mod_lt e b ltac:(lia)) as Hm.
  symmetry. apply div_lt_iff; [lia|].
  destruct (N.eqb_spec (e mod b) 0) as [E|E].
  - rewrite E in Hdm. rewrite subw_small.
    + assert (e / b <> 0) by nia. nia.
    + assert (e / b <> 0) by nia. lia.
    + assert (e / b <= e) by nia. lia.
  - nia.
Qed.

Lemma blocks_along_spec s b : 0 < b -> s + b <= W64 -> blocks_along s b = (s + b - 1) / b.
Proof.
  intros Hb Hw. unfold blocks_along.
  pose proof (N.div_mod s b ltac:(lia)) as Hdm. pose proof (N.mod_lt s b ltac:(lia)) as Hm.
  symmetry. apply div_lt_iff; [lia|].
  destruct (N.eqb_spec (s mod b) 0) as [E|E]; rewrite addw_small; nia.
Qed.
Lemma blocks_along_lt s b k : 0 < b -> s + b <= W64 -> k < blocks_along s b <-> k * b < s.
Proof.
  intros Hb Hw. rewrite blocks_along_spec by assumption.
  pose proof (N.div_mod (s + b - 1) b ltac:(lia)) as Hdm.
  pose proof (N.mod_lt (s + b - 1) b ltac:(lia)) as Hm. nia.
Qed.

Lemma block_end1_spec s b k : 0 < b -> s + b <= W64 -> k * b < s ->
  block_end1 s b k = N.min ((k + 1) * b) s.
Proof.
  intros Hb Hw Hk. unfold block_end1. assert (k < W64) by nia. assert (k + 1 < W64) by nia.
  rewrite addw_small by lia. rewrite mulw_small by nia. reflexivity.
Qed.
Lemma mulw_chunk s b k : 0 < b -> s + b <= W64 -> k * b < s -> mulw k b = k * b.
Proof. intros; apply mulw_small; nia. Qed.

Lemma bounded1_spec s b k : 0 < b -> s + b <= W64 -> k * b < s ->
  bounded1 s b k = N.min ((k + 1) * b) s - k * b.
Proof.
  intros Hb Hw Hk. unfold bounded1. assert (k + 1 < W64) by nia.
  rewrite addw_small by lia. rewrite mulw_small by nia.
  rewrite (mulw_chunk Hb Hw Hk).
  destruct (N.leb_spec ((k + 1) * b) s).
  - rewrite N.min_l by lia. nia.
  - rewrite N.min_r by lia. rewrite subw_small; nia.
Qed.

(** ** numbering of chunks *)
Fixpoint suffix_prods (l : list N) : list N :=
  match l with [] => [] | _ :: r => prod r :: suffix_prods r end.

Lemma prod_tail_le x r : 0 < prod (x :: r) -> prod r <= prod (x :: r).
Proof.
  cbn [prod]. intros H. destruct (N.eq_dec x 0) as [->|Hx]; [lia|].
  rewrite <- (N.mul_1_l (prod r)) at 1. apply N.mul_le_mono_r. lia.
Qed.
Lemma prod_pos_tail x r : 0 < prod (x :: r) -> 0 < x /\ 0 < prod r.
Proof. cbn [prod]. intros H. destruct x; [lia|]. destruct (prod r); lia. Qed.
Lemma c_strides_spec ext : 0 < prod ext -> prod ext < W64 -> c_strides ext = suffix_prods ext.
Proof.
  induction ext as [|x r IH]; intros Hp Hw; [reflexivity|].
  destruct r as [|y r]; [reflexivity|].
  pose proof (prod_tail_le Hp) as Hle. destruct (prod_pos_tail Hp) as [_ Hp'].
  assert (prod (y :: r) < W64) as Hw' by lia. clear Hp Hw Hle.
  change (c_strides (x :: y :: r)) with
    (match c_strides (y :: r) with s1 :: sr => mulw s1 y :: s1 :: sr | [] => [] end).
  rewrite IH by assumption. cbn [suffix_prods prod] in *. rewrite (N.mul_comm y) in Hw' |- *.
  rewrite mulw_small by exact Hw'. reflexivity.
Qed.

Lemma rowmajor_lt s c : in_shape s c -> rowmajor s c < prod s.
Proof.
  unfold in_shape. intros H; induction H as [|x n xs ns Hx Hxs IH]; cbn [rowmajor prod]; [lia|nia].
Qed.
Lemma in_shape_prod s c : in_shape s c -> 0 < prod s.
Proof. intros H. pose proof (rowmajor_lt H). lia. Qed.

Lemma fold_addw l a : a < W64 -> fold_left addw l a = (a + fold_right N.add 0 l) mod W64.
Proof.
  revert a; induction l as [|x l IH]; intros a Ha; cbn [fold_left fold_right].
  - rewrite N.add_0_r, N.mod_small by exact Ha. reflexivity.
  - rewrite IH by apply addw_lt. unfold addw.
    rewrite N.add_mod_idemp_l by (rewrite W64_val; lia). f_equal; lia.
Qed.

Lemma mulw_terms ext c : in_shape ext c -> prod ext < W64 ->
  fold_right N.add 0 (map2 mulw (suffix_prods ext) c) = rowmajor ext c.
Proof.
  intros H; induction H as [|x n xs ns Hx Hxs IH]; intros Hw; [reflexivity|].
  cbn [suffix_prods map2 fold_right rowmajor]. cbn [prod] in Hw.
  pose proof (rowmajor_lt Hxs) as Hr.
  rewrite IH by nia. rewrite mulw_small by nia. lia.
Qed.
Lemma coord_to_id_spec ext c : in_shape ext c -> prod ext < W64 ->
  coord_to_id (c_strides ext) c = rowmajor ext c.
Proof.
  intros H Hw. pose proof (rowmajor_lt H).
  unfold coord_to_id. rewrite c_strides_spec by (try apply (in_shape_prod H); assumption).
  rewrite fold_addw by (rewrite W64_val; lia).
  rewrite mulw_terms by assumption. rewrite N.mod_small by lia. reflexivity.
Qed.

Lemma id_to_coord_spec ext i : i < prod ext -> prod ext < W64 ->
  exists c, id_to_coord (suffix_prods ext) i = Ok c /\ in_shape ext c /\ rowmajor ext c = i.
Proof.
  revert i; induction ext as [|n r IH]; intros i Hi Hw.
  - exists []. cbn in Hi |- *. repeat split; [constructor|lia].
  - cbn [prod] in Hi, Hw. cbn [suffix_prods id_to_coord].
    assert (0 < prod r) as Hp by nia.
    destruct (N.eqb_spec (prod r) 0) as [E|_]; [lia|].
    destruct (div_facts i Hp) as (q & m & -> & _ & Hi' & Hm).
    rewrite mulw_small by nia. rewrite subw_small by nia.
    replace (i - q * prod r) with m by lia.
    assert (q < n) by nia.
    destruct (IH m) as (c & E & Hc & Hr); [lia|nia|].
    rewrite E. cbn [bind]. exists (q :: c). split; [reflexivity|]. split.
    + constructor; [lia|exact Hc].
    + cbn [rowmajor]. rewrite Hr. lia.
Qed.

Lemma rowmajor_inj s c d : in_shape s c -> in_shape s d -> rowmajor s c = rowmajor s d -> c = d.
Proof.
  intros Hc; revert d; induction Hc as [|x n xs ns Hx Hxs IH]; intros d Hd E;
    inversion Hd as [|y n' ys ns' Hy Hys]; subst; [reflexivity|].
  cbn [rowmajor] in E. pose proof (rowmajor_lt Hxs). pose proof (rowmajor_lt Hys).
  assert (x = y) by nia. subst y. f_equal. apply IH; [exact Hys|nia].
Qed.

(** ** from the grid parameters to the specification *)
Lemma valid_chunk_in_shape s b k : all2 (fun s b => 0 < b /\ s + b <= W64) s b ->
  in_shape (map2 blocks_along s b) k <-> valid_chunk s b k.
Proof.
  unfold valid_chunk, in_shape. revert b k; induction s as [|s0 s IH]; intros [|b0 b] k H;
    cbn in H; try contradiction.
  - cbn [map2]. destruct k as [|k0 k]; cbn; split; intros Hk; try constructor; try tauto; inversion Hk.
  - destruct H as [[Hb Hw] H]. cbn [map2]. destruct k as [|k0 k]; cbn [all3].
    + split; [intros Hk; inversion Hk|tauto].
    + rewrite <- (IH _ k H). rewrite <- (blocks_along_lt k0 Hb Hw). split.
      * intros Hk; inversion Hk; subst; auto.
      * intros [? ?]; constructor; auto.
Qed.

Lemma map2_blocks_along s b : all2 (fun s b => 0 < b /\ s + b <= W64) s b ->
  map2 blocks_along s b = chunk_counts s b.
Proof.
  unfold chunk_counts. revert b; induction s as [|s0 s IH]; intros [|b0 b] H; cbn in H; try contradiction;
    cbn [map2]; [reflexivity|].
  destruct H as [[Hb Hw] H]. rewrite blocks_along_spec by assumption. f_equal. auto.
Qed.

Lemma mk_blocking_ok s b : dims_ok s b ->
  mk_blocking s b = Ok (Blocking s b (chunk_counts s b) (c_strides (chunk_counts s b))
                                 (prodw (chunk_counts s b))).
Proof.
  intros [Hn H]. unfold mk_blocking. pose proof (all2_length H) as Hl.
  destruct (N.eqb_spec (lenN s) 0) as [E|_].
  { destruct s; [congruence|]. rewrite lenN_cons in E; lia. }
  destruct (N.ltb_spec (lenN b) (lenN s)) as [E|_]; [unfold lenN in E; lia|].
  rewrite <- Hl at 1 || idtac.
  replace (existsb (fun x => x =? 0) (firstn (length s) b)) with false.
  - rewrite map2_blocks_along by exact H. reflexivity.
  - rewrite Hl, firstn_all. clear Hn Hl. revert b H; induction s as [|s0 s IH]; intros [|b0 b] H;
      cbn in H; try contradiction; [reflexivity|].
    destruct H as [[Hb _] H]. cbn [existsb]. rewrite <- IH by exact H. lia.
Qed.

Lemma check_block_spec s b k bl : dims_ok s b -> mk_blocking s b = Ok bl ->
  check_block bl k = true <-> valid_chunk s b k.
Proof.
  intros Hd E. rewrite (mk_blocking_ok Hd) in E. injection E as <-. destruct Hd as [_ H].
  unfold check_block. cbn [b_shape b_per_dim].
  rewrite <- (valid_chunk_in_shape _ H). rewrite (map2_blocks_along H).
  assert (length (chunk_counts s b) = length s) as Hl
    by (unfold chunk_counts; apply map2_length; apply (all2_length H)).
  unfold in_shape. generalize dependent (chunk_counts s b). intros cc Hl.
  rewrite andb_true_iff, N.eqb_eq. rewrite lenN_length, <- Hl. clear Hl H.
  revert k; induction cc as [|n cc IH]; intros [|x k]; cbn; try (split; [intros []; discriminate|intros Hk; inversion Hk]).
  - split; auto.
  - rewrite andb_true_iff. specialize (IH k). split.
    + intros [Hl [Hx Hf]]. constructor; [lia|]. apply IH. split; [lia|exact Hf].
    + intros Hk; inversion Hk; subst. destruct IH as [_ IH]. destruct IH as [IH1 IH2]; [assumption|].
      repeat split; [lia|lia|exact IH2].
Qed.

Theorem id_coord_bijection s b bl : dims_ok s b -> mk_blocking s b = Ok bl ->
  prod (chunk_counts s b) < W64 ->
  (forall i, i < b_number bl ->
     exists k, id_to_coord (b_strides bl) i = Ok k /\ valid_chunk s b k /\
               coord_to_id (b_strides bl) k = i) /\
  (forall k, valid_chunk s b k ->
     coord_to_id (b_strides bl) k < b_number bl /\
     id_to_coord (b_strides bl) (coord_to_id (b_strides bl) k) = Ok k) /\
  (forall k, valid_chunk s b k -> coord_to_id (b_strides bl) k = rowmajor (chunk_counts s b) k).
Proof.
  intros Hd E Hw. rewrite (mk_blocking_ok Hd) in E. injection E as <-.
  cbn [b_number b_strides]. destruct Hd as [_ H]. rewrite prodw_small by exact Hw.
  assert (forall k, valid_chunk s b k -> in_shape (chunk_counts s b) k) as Hv.
  { intros k Hk. rewrite <- (map2_blocks_along H). apply valid_chunk_in_shape; assumption. }
  assert (forall k, valid_chunk s b k ->
            coord_to_id (c_strides (chunk_counts s b)) k = rowmajor (chunk_counts s b) k) as Hc.
  { intros k Hk. apply coord_to_id_spec; auto. }
  split; [|split; [|exact Hc]].
  - intros i Hi. destruct (id_to_coord_spec Hi Hw) as (k & E & Hk & Hr).
    exists k. rewrite c_strides_spec by lia. repeat split; [exact E| |].
    + apply valid_chunk_in_shape; [exact H|]. rewrite (map2_blocks_along H). exact Hk.
    + rewrite <- c_strides_spec by lia. rewrite coord_to_id_spec by assumption. exact Hr.
  - intros k Hk. rewrite (Hc k Hk). pose proof (rowmajor_lt (Hv k Hk)) as Hlt.
    split; [exact Hlt|]. destruct (id_to_coord_spec Hlt Hw) as (k' & E & Hk' & Hr).
    rewrite c_strides_spec by lia. rewrite E. f_equal.
    apply (rowmajor_inj Hk' (Hv k Hk)). exact Hr.
Qed.
