(** Lemmas for include/z5/util/for_each.hxx. *)
From Verif Require Import M_Base M_Blocking M_Pool M_ForEach S_Array S_Grid S_Pool S_ForEach P_Base P_Blocking P_Roi P_Pool P_Foreach.

Lemma shape_eqb_eq a b : shape_eqb a b = true <-> a = b.
Proof.
  revert b. induction a as [|x a IH]; intros [|y b]; cbn; try (split; congruence).
  rewrite andb_true_iff, IH, N.eqb_eq. split; [intros [-> ->]; reflexivity|intros [= -> ->]; auto].
Qed.
Lemma block_eqb_eq a b : block_eqb a b = true <-> a = b.
Proof.
  destruct a as [a1 a2], b as [b1 b2]. unfold block_eqb. cbn [fst snd].
  rewrite andb_true_iff, !shape_eqb_eq. split; [intros [-> ->]; reflexivity|intros [= -> ->]; auto].
Qed.

Section Counted.
Variables (A B : Type) (eqb : A -> A -> bool).
Hypothesis eqb_eq : forall a b, eqb a b = true <-> a = b.
Variables (items : list A) (d : A) (f : nat -> nat -> B -> prog (A -> nat) B) (fail : A -> option error).
Hypothesis nodup : NoDup items.
Hypothesis f_ok : forall tid i st, (i < length items)%nat -> f tid i st = counted eqb fail tid (nth i items d) st.

Lemma counted_ok (J : B -> Prop) :
  tasks_ok (fun (c : A -> nat) a => c a) (length items) (fun i tid => f tid i) J (fun i => eq (nth i items d)) (fun _ => False)
    (fun _ => 0%nat) (fun _ _ => 1%nat) (fun i => thrown (fail (nth i items d))).
Proof using eqb_eq nodup f_ok.
  split; try tauto.
  - intros i j l Hi Hj Hne <- E. apply Hne. symmetry. now apply (proj1 (NoDup_nth items d) nodup).
  - intros i tid b Hi. rewrite f_ok by exact Hi. unfold counted. constructor.
    + intros m m' _. cbn. split; [reflexivity|]. intros l E. destruct (eqb l _); congruence.
    + intros m l Hne. cbn. destruct (eqb l _) eqn:E; [|reflexivity]. apply eqb_eq in E. subst. tauto.
    + intros m. constructor.
  - intros i tid b Hi HI. rewrite f_ok by exact Hi. cbn. split.
    + intros l <-. now rewrite (proj2 (eqb_eq _ _) eq_refl).
    + destruct (fail _); cbn; auto.
Qed.

Variable junk : B -> Prop.

Lemma counted_run threads est b0 calls r :
  foreach_run threads est (length items) f junk b0 (fun _ => 0%nat) calls r ->
  at_most_once (fun a => In a items) calls /\
  r = thrown (first_error (map (fun a => thrown (fail a)) items)) /\
  ((forall a, In a items -> fail a = None) -> r = Ok tt /\ each_once (fun a => In a items) calls).
Proof using eqb_eq nodup f_ok.
  intros H.
  destruct (foreach_run_result (counted_ok (fun _ => True)) (fun _ _ => Logic.I) Logic.I H)
    as (R & C & bss & D & _ & E1 & E2).
  assert (OUT : forall a, ~ In a items -> calls a = 0%nat).
  { intros a Ha. apply C. intros i Hi <-. apply Ha. now apply nth_In. }
  split; [split; [|exact OUT]|].
  { intros a. assert (Dec : In a items \/ ~ In a items).
    { clear -eqb_eq. induction items as [|x l IH]; [right; tauto|]. destruct (eqb x a) eqn:E.
      - apply eqb_eq in E. left. now left.
      - assert (x <> a) by (intros Q; apply eqb_eq in Q; congruence). destruct IH; [left; now right|right; intros [?|?]; tauto]. }
    destruct Dec as [Ha|Ha]; [|rewrite (OUT a Ha); lia].
    apply (In_nth _ _ d) in Ha. destruct Ha as (i & Li & E).
    assert (X : In i (concat bss)) by (rewrite D; apply in_seq; lia). apply in_concat in X. destruct X as (bs & Hb & Hi).
    destruct (in_dec Nat.eq_dec i (started (fun i => thrown (fail (nth i items d))) bs)) as [Y|Y].
    - rewrite (E1 bs i Hb Y a E). lia.
    - rewrite (E2 bs i Hb Hi Y a E). lia. }
  split.
  { rewrite R. do 2 f_equal. rewrite <- (nth_map_seq items d) at 2. now rewrite map_map. }
  intros Hok.
  destruct (foreach_run_ok (counted_ok (fun _ => True)) (fun _ _ => Logic.I) Logic.I H) as (R1 & R2 & R3).
  { intros i Hi. rewrite Hok; [reflexivity|now apply nth_In]. }
  split; [exact R1|]. split; [|exact OUT].
  intros a Ha. apply (In_nth _ _ d) in Ha. destruct Ha as (i & Li & E). now apply (R2 i Li a E).
Qed.

Lemma counted_exists threads est b0 : (exists b, junk b) ->
  exists calls r, foreach_run threads est (length items) f junk b0 (fun _ => 0%nat) calls r.
Proof using eqb_eq nodup f_ok.
  intros Hj. apply (foreach_run_exists (counted_ok (fun _ => True)) (fun _ _ => Logic.I) Hj threads est (b0 := b0) Logic.I).
Qed.
End Counted.

(** The chunks in the order of their ids. *)
Lemma chunks_by_id s b bl : dims_ok s b -> mk_blocking s b = Ok bl -> prod (chunk_counts s b) < W64 ->
  exists l, length l = N.to_nat (b_number bl) /\ NoDup l /\ (forall k, In k l <-> valid_chunk s b k) /\
    forall i, (i < length l)%nat -> id_to_coord (b_strides bl) (N.of_nat i) = Ok (nth i l []).
Proof.
  intros D M P. destruct (id_coord_bijection D M P) as (B1 & B2 & _).
  set (g i := match id_to_coord (b_strides bl) (N.of_nat i) with Ok k => k | _ => [] end).
  set (n := N.to_nat (b_number bl)).
  assert (G : forall i, (i < n)%nat -> exists k, id_to_coord (b_strides bl) (N.of_nat i) = Ok k /\ g i = k /\ valid_chunk s b k /\ coord_to_id (b_strides bl) k = N.of_nat i).
  { intros i Hi. destruct (B1 (N.of_nat i)) as (k & E & V & C); [unfold n in Hi; lia|].
    exists k. unfold g. rewrite E. auto. }
  assert (NTH : forall i, (i < n)%nat -> nth i (map g (seq 0 n)) [] = g i).
  { intros i Hi. rewrite (nth_indep _ _ (g 0%nat)) by (rewrite map_length, seq_length; exact Hi).
    rewrite map_nth, seq_nth by exact Hi. reflexivity. }
  exists (map g (seq 0 n)). split; [now rewrite map_length, seq_length|]. split; [|split].
  - apply NoDup_nth with (d := []). rewrite map_length, seq_length. intros i j Hi Hj. rewrite !NTH by assumption.
    intros E. destruct (G i Hi) as (k & _ & E1 & _ & C1), (G j Hj) as (k' & _ & E2 & _ & C2).
    apply Nat2N.inj. rewrite <- C1, <- C2. congruence.
  - intros k. split.
    + intros H. apply in_map_iff in H. destruct H as (i & <- & Hi). apply in_seq in Hi.
      destruct (G i) as (k & _ & -> & V & _); [lia|exact V].
    + intros V. destruct (B2 k V) as [L E]. apply in_map_iff. exists (N.to_nat (coord_to_id (b_strides bl) k)).
      split; [|apply in_seq; unfold n; lia].
      unfold g. now rewrite N2Nat.id, E.
  - intros i. rewrite map_length, seq_length. intros Hi. rewrite NTH by exact Hi.
    destruct (G i Hi) as (k & E & -> & _). exact E.
Qed.

Lemma roi_extent_ok s rb n re : valid_region s rb n -> Forall (fun x => x < W64) s ->
  re = map2 N.add rb n -> roi_extent rb re = n.
Proof.
  intros V Fs ->. unfold roi_extent. revert s n V Fs. induction rb as [|x rb IH]; intros [|y s] [|z n] V Fs; cbn in *; try tauto.
  inversion Fs; subst. destruct V as [V1 V2]. f_equal; [|now apply (IH s)].
  unfold subw. rewrite W64_val in *. lia.
Qed.

Lemma dims_bound s b : dims_ok s b -> Forall (fun x => x < W64) s.
Proof.
  intros [_ H]. revert b H. induction s as [|x s IH]; intros [|y b]; cbn; try tauto; constructor.
  - lia.
  - now apply (IH b).
Qed.

(** Blocks of different coordinates differ. *)
Lemma block_inj s b k k' : dims_ok s b -> valid_chunk s b k -> valid_chunk s b k' ->
  chunk_origin b k = chunk_origin b k' -> k = k'.
Proof.
  intros [_ D]. unfold valid_chunk, chunk_origin. revert b k k' D.
  induction s as [|x s IH]; intros [|y b] [|z k] [|z' k']; cbn; try tauto; try congruence.
  intros [D1 D2] [V1 V2] [W1 W2] [= E1 E2]. f_equal; [nia|]. now apply (IH b).
Qed.

Lemma NoDup_map_on X Y (g : X -> Y) l : NoDup l -> (forall x y, In x l -> In y l -> g x = g y -> x = y) -> NoDup (map g l).
Proof.
  induction 1 as [|x l Hx Hl IH]; intros Hg; cbn; [constructor|]. constructor.
  - intros H. apply in_map_iff in H. destruct H as (y & E & Hy). apply Hg in E; [subst; tauto|now right|now left].
  - apply IH. intros a c Ha Hc. apply Hg; now right.
Qed.

Lemma blocks_of_list s b (P : shape -> Prop) l : dims_ok s b -> NoDup l -> (forall k, In k l <-> P k) -> (forall k, P k -> valid_chunk s b k) ->
  let g k := (block_begin b k, block_shape_of s b k) in
  NoDup (map g l) /\ (forall a, In a (map g l) <-> is_block P s b a) /\
  forall i, (i < length l)%nat -> nth i (map g l) ([], []) = g (nth i l []).
Proof.
  intros D ND H V g.
  assert (G : forall k, In k l -> g k = (chunk_origin b k, chunk_extent s b k)).
  { intros k Hk. destruct (block_shape_extent D (V k (proj1 (H k) Hk))) as (E1 & _ & E2). unfold g. now rewrite E1, E2. }
  split; [|split].
  - apply NoDup_map_on; [exact ND|]. intros x y Hx Hy. rewrite !G by assumption. intros [= E _].
    apply H, V in Hx. apply H, V in Hy. now apply (block_inj D Hx Hy).
  - intros a. rewrite in_map_iff. split.
    + intros (k & <- & Hk). exists k. rewrite G by exact Hk. split; [now apply H|reflexivity].
    + intros (k & Hk & ->). apply H in Hk. exists k. split; [now apply G|exact Hk].
  - intros i Hi. rewrite (nth_indep _ _ (g [])) by (rewrite map_length; exact Hi). apply map_nth.
Qed.

Lemma grid_loop_mono lo hi : forall f f' pos l, (f <= f')%nat -> grid_loop f lo hi pos = Some l -> grid_loop f' lo hi pos = Some l.
Proof.
  induction f as [|f IH]; intros [|f'] pos l L; cbn; try discriminate; [lia|].
  destruct (odo_next lo hi pos) as [pos' []]; [auto|].
  destruct (grid_loop f lo hi pos') as [r|] eqn:E; [|discriminate]. rewrite (IH f' pos' r ltac:(lia) E). auto.
Qed.
Lemma blocks_overlapping_mono f f' b off n l : (f <= f')%nat -> blocks_overlapping f b off n = Some l ->
  blocks_overlapping f' b off n = Some l.
Proof. unfold blocks_overlapping, make_grid. destruct (elem_to_block b off); [auto|apply grid_loop_mono]. Qed.

Section Theorems.
Variables (B : Type) (s b : shape) (threads : N) (est : Z) (junk : B -> Prop) (b0 : B).
Hypothesis D : dims_ok s b.
Hypothesis some : exists x, junk x.

Lemma first_error_some A (fail : A -> option error) l : (exists a, In a l /\ fail a <> None) ->
  exists a e, In a l /\ fail a = Some e /\ first_error (map (fun a => thrown (fail a)) l) = Some e.
Proof using.
  induction l as [|x l IH]; intros (a & Ha & Na); [destruct Ha|]. cbn. destruct (fail x) as [e|] eqn:E; cbn.
  - exists x, e. split; [now left|auto].
  - destruct IH as (a' & e & H1 & H2 & H3).
    { exists a. split; [|exact Na]. destruct Ha as [->|Ha]; [congruence|exact Ha]. }
    exists a', e. split; [now right|auto].
Qed.

Lemma visited_items A (fail : A -> option error) (P : A -> Prop) l calls r : (forall a, In a l <-> P a) ->
  at_most_once (fun a => In a l) calls /\
  r = thrown (first_error (map (fun a => thrown (fail a)) l)) /\
  ((forall a, In a l -> fail a = None) -> r = Ok tt /\ each_once (fun a => In a l) calls) ->
  visited fail P calls r.
Proof using.
  intros H ((A1 & A2) & R & O). split; [|split].
  - split; [exact A1|]. intros a Ha. apply A2. rewrite H. exact Ha.
  - intros Hf. destruct O as (-> & O1 & O2); [intros a Ha; apply Hf, H, Ha|].
    split; [reflexivity|]. split; [intros a Ha; apply O1, H, Ha|intros a Ha; apply O2; rewrite H; exact Ha].
  - intros (a & Ha & Na). destruct (@first_error_some A fail l) as (a' & e & H1 & H2 & H3); [exists a; split; [now apply H|exact Na]|].
    exists a', e. split; [now apply H|]. split; [exact H2|]. rewrite R, H3. reflexivity.
Qed.

Lemma each_chunk_spec fail calls r : prod (chunk_counts s b) < W64 ->
  for_each_chunk s b threads est junk b0 (fun _ => 0%nat) (counted shape_eqb fail) calls r ->
  visited fail (valid_chunk s b) calls r.
Proof using D.
  intros P [bl Hb Hr]. destruct (chunks_by_id D Hb P) as (l & L & ND & V & Hi). rewrite <- L in Hr.
  apply (visited_items V). eapply (counted_run shape_eqb_eq) with (d := []); [exact ND| |exact Hr].
  intros tid i st Li. cbn beta. rewrite (Hi i Li). reflexivity.
Qed.

Lemma each_chunk_exists fail : prod (chunk_counts s b) < W64 ->
  exists calls r, for_each_chunk s b threads est junk b0 (fun _ => 0%nat) (counted shape_eqb fail) calls r.
Proof using D some.
  intros P. pose proof (mk_blocking_ok D) as Hb. destruct (chunks_by_id D Hb P) as (l & L & ND & V & Hi).
  cbn [b_strides] in Hi.
  assert (X : exists calls r, foreach_run threads est (length l)
      (fun tid i st => plift (id_to_coord (c_strides (chunk_counts s b)) (N.of_nat i)) (fun c => counted shape_eqb fail tid c st))
      junk b0 (fun _ => 0%nat) calls r).
  { eapply (counted_exists shape_eqb_eq) with (d := []) (fail := fail); [exact ND| |exact some].
    intros tid i st Li. cbn beta. rewrite (Hi i Li). reflexivity. }
  destruct X as (calls & r & X). exists calls, r. econstructor; [exact Hb|]. rewrite <- L. exact X.
Qed.

Lemma each_block_spec fail calls r : prod (chunk_counts s b) < W64 ->
  for_each_block s b threads est junk b0 (fun _ => 0%nat) (counted block_eqb fail) calls r ->
  visited fail (is_block (valid_chunk s b) s b) calls r.
Proof using D.
  intros P [bl Hb Hr]. destruct (chunks_by_id D Hb P) as (l & L & ND & V & Hi). rewrite <- L in Hr.
  rewrite (mk_blocking_ok D) in Hb. injection Hb as <-. cbn [b_block b_shape] in Hr.
  destruct (blocks_of_list D ND V (fun k H => H)) as (ND' & V' & Hn). rewrite <- (map_length (fun k => (block_begin b k, block_shape_of s b k))) in Hr.
  apply (visited_items V'). eapply (counted_run block_eqb_eq) with (d := ([], [])); [exact ND'| |exact Hr].
  intros tid i st Li. rewrite map_length in Li. rewrite (Hn i Li). cbn beta. rewrite (Hi i Li). reflexivity.
Qed.

Lemma each_block_exists fail : prod (chunk_counts s b) < W64 ->
  exists calls r, for_each_block s b threads est junk b0 (fun _ => 0%nat) (counted block_eqb fail) calls r.
Proof using D some.
  intros P. pose proof (mk_blocking_ok D) as Hb. destruct (chunks_by_id D Hb P) as (l & L & ND & V & Hi).
  destruct (blocks_of_list D ND V (fun k H => H)) as (ND' & V' & Hn).
  cbn [b_strides] in Hi.
  assert (X : exists calls r, foreach_run threads est (length (map (fun k => (block_begin b k, block_shape_of s b k)) l))
      (fun tid i st => plift (id_to_coord (c_strides (chunk_counts s b)) (N.of_nat i)) (fun c =>
         counted block_eqb fail tid (block_begin b c, block_shape_of s b c) st))
      junk b0 (fun _ => 0%nat) calls r).
  { eapply (counted_exists block_eqb_eq) with (d := ([], [])) (fail := fail); [exact ND'| |exact some].
    intros tid i st Li. rewrite map_length in Li. rewrite (Hn i Li). cbn beta. rewrite (Hi i Li). reflexivity. }
  destruct X as (calls & r & X). exists calls, r. econstructor; [exact Hb|]. rewrite <- L. rewrite map_length in X. exact X.
Qed.

Variables (rb n : shape).
Hypothesis V : valid_region s rb n.
Let re := map2 N.add rb n.

Lemma roi_list fuel l : blocks_overlapping fuel b rb (roi_extent rb re) = Some l ->
  NoDup l /\ (forall k, In k l <-> overlaps s b rb n k) /\ (forall k, overlaps s b rb n k -> valid_chunk s b k).
Proof using D V.
  unfold re. rewrite (roi_extent_ok V (dims_bound D) eq_refl). intros E.
  destruct (chunks_of_region D V) as (l' & HF & _ & _ & ND & HI & HV).
  assert (l = l').
  { specialize (HF (Nat.max fuel (length l')) ltac:(lia)).
    pose proof (@blocks_overlapping_mono fuel (Nat.max fuel (length l')) b rb n l ltac:(lia) E). congruence. }
  subst l'. split; [exact ND|]. split; [exact HI|]. intros k Hk. now apply HV, HI.
Qed.

Lemma roi_list_exists : exists fuel l, blocks_overlapping fuel b rb (roi_extent rb re) = Some l.
Proof using D V.
  unfold re. rewrite (roi_extent_ok V (dims_bound D) eq_refl).
  destruct (chunks_of_region D V) as (l' & HF & _). exists (length l'), l'. now apply HF.
Qed.

Lemma each_chunk_in_roi_spec fail calls r :
  for_each_chunk_in_roi s b threads est junk b0 (fun _ => 0%nat) rb re (counted shape_eqb fail) calls r ->
  visited fail (overlaps s b rb n) calls r.
Proof using D V.
  intros [bl l fuel Hb Hl Hr]. rewrite (mk_blocking_ok D) in Hb. injection Hb as <-. cbn [b_block] in Hl.
  destruct (roi_list Hl) as (ND & HI & HV). apply (visited_items HI).
  eapply (counted_run shape_eqb_eq) with (d := []); [exact ND| |exact Hr]. reflexivity.
Qed.

Lemma each_chunk_in_roi_exists fail :
  exists calls r, for_each_chunk_in_roi s b threads est junk b0 (fun _ => 0%nat) rb re (counted shape_eqb fail) calls r.
Proof using D V some.
  destruct roi_list_exists as (fuel & l & Hl). destruct (roi_list Hl) as (ND & HI & HV).
  assert (X : exists calls r, foreach_run threads est (length l)
      (fun tid i st => counted shape_eqb fail tid (nth i l []) st) junk b0 (fun _ => 0%nat) calls r).
  { eapply (counted_exists shape_eqb_eq) with (d := []) (fail := fail); [exact ND|reflexivity|exact some]. }
  destruct X as (calls & r & X). exists calls, r. econstructor; [exact (mk_blocking_ok D)|exact Hl|exact X].
Qed.

Lemma each_block_in_roi_spec fail calls r :
  for_each_block_in_roi s b threads est junk b0 (fun _ => 0%nat) rb re (counted block_eqb fail) calls r ->
  visited fail (is_block (overlaps s b rb n) s b) calls r.
Proof using D V.
  intros [bl l fuel Hb Hl Hr]. rewrite (mk_blocking_ok D) in Hb. injection Hb as <-. cbn [b_block b_shape] in Hl, Hr.
  destruct (roi_list Hl) as (ND & HI & HV).
  destruct (blocks_of_list D ND HI HV) as (ND' & V' & Hn). rewrite <- (map_length (fun k => (block_begin b k, block_shape_of s b k))) in Hr.
  apply (visited_items V'). eapply (counted_run block_eqb_eq) with (d := ([], [])); [exact ND'| |exact Hr].
  intros tid i st Li. rewrite map_length in Li. rewrite (Hn i Li). reflexivity.
Qed.

Lemma each_block_in_roi_exists fail :
  exists calls r, for_each_block_in_roi s b threads est junk b0 (fun _ => 0%nat) rb re (counted block_eqb fail) calls r.
Proof using D V some.
  destruct roi_list_exists as (fuel & l & Hl). destruct (roi_list Hl) as (ND & HI & HV).
  destruct (blocks_of_list D ND HI HV) as (ND' & V' & Hn).
  assert (X : exists calls r, foreach_run threads est (length (map (fun k => (block_begin b k, block_shape_of s b k)) l))
      (fun tid i st => counted block_eqb fail tid (block_begin b (nth i l []), block_shape_of s b (nth i l [])) st)
      junk b0 (fun _ => 0%nat) calls r).
  { eapply (counted_exists block_eqb_eq) with (d := ([], [])) (fail := fail); [exact ND'| |exact some].
    intros tid i st Li. rewrite map_length in Li. rewrite (Hn i Li). reflexivity. }
  destruct X as (calls & r & X). exists calls, r. econstructor; [exact (mk_blocking_ok D)|exact Hl|]. rewrite map_length in X. exact X.
Qed.
End Theorems.

Lemma in_shape_dec s x : in_shape s x \/ ~ in_shape s x.
Proof.
  unfold in_shape. revert x. induction s as [|a s IH]; intros [|y x].
  - left. constructor.
  - right. intros H. inversion H.
  - right. intros H. inversion H.
  - destruct (IH x) as [H|H]; [|right; intros Q; inversion Q; subst; tauto].
    destruct (N.lt_ge_cases y a) as [L|L]; [left; now constructor|right; intros Q; inversion Q; subst; lia].
Qed.

Lemma each_block_tile B s b threads est (junk : B -> Prop) b0 calls r :
  dims_ok s b -> prod (chunk_counts s b) < W64 ->
  for_each_block s b threads est junk b0 (fun _ => 0%nat) (counted block_eqb (fun _ => None)) calls r ->
  r = Ok tt /\
  (forall x, in_shape s x -> exists a, calls a = 1%nat /\ in_box (fst a) (snd a) x /\
     forall a', calls a' <> 0%nat -> in_box (fst a') (snd a') x -> a' = a) /\
  (forall a x, calls a <> 0%nat -> in_box (fst a) (snd a) x -> in_shape s x).
Proof.
  intros D P H. destruct (each_block_spec D P H) as (_ & X & _). destruct (X (fun _ _ => eq_refl)) as (-> & C1 & C0). clear X H.
  destruct (chunks_tile D) as [T1 T2]. split; [reflexivity|].
  assert (G : forall k, valid_chunk s b k -> (chunk_origin b k, chunk_extent s b k) = (block_begin b k, block_shape_of s b k)).
  { intros k V. destruct (block_shape_extent D V) as (E1 & _ & E2). now rewrite E1, E2. }
  split.
  - intros x Hx. destruct (T1 x Hx) as (V & I1 & U). exists (block_begin b (elem_to_block b x), block_shape_of s b (elem_to_block b x)).
    split; [apply C1; eexists; split; [exact V|now rewrite G]|]. split; [exact I1|].
    intros a' Ha' I'. destruct (block_eqb a' (block_begin b (elem_to_block b x), block_shape_of s b (elem_to_block b x))) eqn:E; [now apply block_eqb_eq in E|].
    exfalso. apply Ha', C0. intros (k & Vk & ->). rewrite G in * by exact Vk. cbn [fst snd] in I'. rewrite (U k Vk I') in E.
    rewrite (proj2 (block_eqb_eq _ _) eq_refl) in E. discriminate.
  - intros a x Ha I1. destruct (in_shape_dec s x) as [Hx|Hx]; [exact Hx|]. exfalso. apply Ha, C0. intros (k & Vk & ->). apply Hx.
    rewrite G in I1 by exact Vk. cbn [fst snd] in I1. destruct (T2 k Vk) as (E1 & E2 & _). rewrite E2 in I1.
    clear -E1 I1. unfold in_shape. revert E1 I1. generalize (block_shape_of s b k) as n. intros n. revert b k n x.
    induction s as [|a s IH]; intros [|b0 b] [|k0 k] [|n0 n] x; cbn; try tauto; intros E I1; inversion I1; subst; [constructor|].
    constructor; [lia|]. now apply (IH b k n).
Qed.
