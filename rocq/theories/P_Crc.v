(** Proofs about the shard checksum. *)
From Verif Require Import M_Base S_Array S_Bytes S_Crc M_Bytes M_Crc P_Base P_Bytes.

Ltac bits_tac := repeat (rewrite N.lxor_spec || rewrite N.land_spec || rewrite N.shiftr_spec' || rewrite N.bits_0).

(** ** the bit step is linear and injective *)
Lemma crc_round_bit c i :
  N.testbit (crc_round c) i = xorb (N.testbit c (i + 1)) (N.testbit c 0 && N.testbit crc_poly i).
Proof.
  unfold crc_round. change 1 with (N.ones 1) at 1. rewrite N.land_ones. change (2 ^ 1) with 2.
  rewrite <- N.bit0_mod.
  destruct (N.testbit c 0); cbn [N.b2n].
  - change (1 =? 0) with false. cbn iota. rewrite N.lxor_spec, N.shiftr_spec'. reflexivity.
  - change (0 =? 0) with true. cbn iota. rewrite N.shiftr_spec'. cbn. rewrite xorb_false_r. reflexivity.
Qed.

Lemma crc_round_xor a b : crc_round (N.lxor a b) = N.lxor (crc_round a) (crc_round b).
Proof.
  apply N.bits_inj. intros i. rewrite N.lxor_spec, !crc_round_bit, !N.lxor_spec.
  destruct (N.testbit a (i+1)), (N.testbit b (i+1)), (N.testbit a 0), (N.testbit b 0), (N.testbit crc_poly i); reflexivity.
Qed.
Lemma crc_round_0 : crc_round 0 = 0. Proof. reflexivity. Qed.
Lemma crc_rounds_xor n a b : crc_rounds n (N.lxor a b) = N.lxor (crc_rounds n a) (crc_rounds n b).
Proof. revert a b; induction n as [|n IH]; intros; cbn [crc_rounds]; [reflexivity|]. rewrite crc_round_xor. apply IH. Qed.
Lemma crc_rounds_0 n : crc_rounds n 0 = 0.
Proof. induction n; cbn [crc_rounds]; auto. Qed.
Lemma crc_rounds_add n m c : crc_rounds (n + m) c = crc_rounds m (crc_rounds n c).
Proof. revert c; induction n; intros; cbn; auto. Qed.
Lemma crc_round_double y : crc_round (2 * y) = y.
Proof.
  apply N.bits_inj. intros i. rewrite crc_round_bit, N.testbit_even_0. cbn [andb].
  rewrite xorb_false_r, N.add_1_r, N.testbit_even_succ by lia. reflexivity.
Qed.

Definition word (c : N) : Prop := c < 2 ^ 32.
Lemma word_bits c : word c <-> forall i, 32 <= i -> N.testbit c i = false.
Proof.
  unfold word. split.
  - intros H i Hi. destruct (N.eq_dec c 0) as [->|Hc]; [apply N.bits_0|].
    apply N.bits_above_log2. apply N.lt_le_trans with 32; [|exact Hi]. apply N.log2_lt_pow2; lia.
  - intros H. destruct (N.eq_dec c 0) as [->|Hc]; [reflexivity|].
    apply N.log2_lt_pow2; [lia|]. destruct (N.lt_ge_cases (N.log2 c) 32) as [|Hge]; [assumption|].
    specialize (H _ Hge). rewrite N.bit_log2 in H by exact Hc. discriminate.
Qed.
Lemma word_xor a b : word a -> word b -> word (N.lxor a b).
Proof. rewrite !word_bits. intros Ha Hb i Hi. rewrite N.lxor_spec, Ha, Hb by exact Hi. reflexivity. Qed.
Lemma word_round c : word c -> word (crc_round c).
Proof.
  rewrite !word_bits. intros H i Hi. rewrite crc_round_bit, H by lia.
  assert (word crc_poly) as Hp by reflexivity. rewrite word_bits in Hp. rewrite Hp by exact Hi.
  rewrite andb_false_r. reflexivity.
Qed.
Lemma word_rounds n c : word c -> word (crc_rounds n c).
Proof. revert c; induction n; intros; cbn; auto. apply IHn. apply word_round. assumption. Qed.

Lemma crc_round_nonzero c : word c -> crc_round c = 0 -> c = 0.
Proof.
  intros Hw H. apply N.bits_inj_0. assert (N.testbit c 0 = false) as H0.
  { pose proof (crc_round_bit c 31) as E. rewrite H, N.bits_0 in E.
    rewrite word_bits in Hw. rewrite (Hw (31 + 1)) in E by lia.
    change (N.testbit crc_poly 31) with true in E. rewrite andb_true_r in E. destruct (N.testbit c 0); [discriminate|reflexivity]. }
  intros n. destruct (N.eq_dec n 0) as [->|Hn]; [exact H0|].
  pose proof (crc_round_bit c (n - 1)) as E. rewrite H, N.bits_0, H0 in E. cbn [andb] in E.
  rewrite xorb_false_r in E. replace (n - 1 + 1) with n in E by lia. auto.
Qed.
Lemma crc_rounds_nonzero n c : word c -> crc_rounds n c = 0 -> c = 0.
Proof.
  revert c; induction n as [|n IH]; intros c Hw H; cbn [crc_rounds] in H; [exact H|].
  apply crc_round_nonzero; [exact Hw|]. apply IH; [apply word_round; exact Hw|exact H].
Qed.
Lemma crc_rounds_inj n a b : word a -> word b -> crc_rounds n a = crc_rounds n b -> a = b.
Proof.
  intros Ha Hb E. apply N.lxor_eq. apply (@crc_rounds_nonzero n); [apply word_xor; assumption|].
  rewrite crc_rounds_xor, E. apply N.lxor_nilpotent.
Qed.

(** ** bit-serial form *)
Definition bit_step (c : N) (b : bool) : N := crc_round (N.lxor c (N.b2n b)).

Lemma bits_serial bits : forall c,
  fold_left bit_step bits c = crc_rounds (length bits) (N.lxor c (bits_value bits)).
Proof.
  induction bits as [|b bits IH]; intros c; cbn [fold_left bits_value length crc_rounds].
  - rewrite N.lxor_0_r. reflexivity.
  - rewrite IH. unfold bit_step.
    replace (N.b2n b + 2 * bits_value bits) with (N.lxor (N.b2n b) (2 * bits_value bits)).
    + rewrite <- N.lxor_assoc, (crc_round_xor (N.lxor c (N.b2n b))), crc_round_double. reflexivity.
    + symmetry. apply N.add_nocarry_lxor. apply N.bits_inj_0. intros i. rewrite N.land_spec.
      destruct (N.eq_dec i 0) as [->|Hi]; [rewrite N.testbit_even_0; apply andb_false_r|].
      replace (N.testbit (N.b2n b) i) with false; [reflexivity|]. destruct b; cbn [N.b2n]; [|rewrite N.bits_0; reflexivity].
      symmetry. apply N.bits_above_log2. cbn. lia.
Qed.

Lemma byte_bits_value b : is_byte b -> bits_value (byte_bits b) = b.
Proof.
  intros Hb. unfold is_byte in Hb.
  assert (forallb (fun n => bits_value (byte_bits (N.of_nat n)) =? N.of_nat n) (seq 0 256) = true) as E
    by (vm_compute; reflexivity).
  rewrite forallb_forall in E. specialize (E (N.to_nat b)). rewrite N2Nat.id in E.
  apply N.eqb_eq. apply E. apply in_seq. lia.
Qed.

Lemma crc_rounds_shift n c : crc_rounds n (c * 2 ^ N.of_nat n) = c.
Proof.
  induction n as [|n IH]; cbn [crc_rounds].
  - change (2 ^ N.of_nat 0) with 1. lia.
  - replace (c * 2 ^ N.of_nat (S n)) with (2 * (c * 2 ^ N.of_nat n)).
    + rewrite crc_round_double. exact IH.
    + replace (N.of_nat (S n)) with (N.succ (N.of_nat n)) by lia. rewrite N.pow_succ_r'. lia.
Qed.

Lemma table_entry i : i < 256 -> nth (N.to_nat i) crc_table 0 = crc_rounds 8 i.
Proof.
  intros Hi. unfold crc_table. set (f := fun i => crc_rounds 8 (N.of_nat i)).
  rewrite nth_indep with (d' := f 0%nat) by (rewrite map_length, seq_length; lia).
  rewrite map_nth, seq_nth by lia. unfold f. f_equal. lia.
Qed.

Lemma crc_update_serial c p : is_byte p -> crc_update c p = fold_left bit_step (byte_bits p) c.
Proof.
  intros Hp. rewrite bits_serial, (byte_bits_value Hp). change (length (byte_bits p)) with 8%nat.
  unfold crc_update. change 255 with (N.ones 8).
  assert (N.land (N.lxor c p) (N.ones 8) < 256) as Hlt.
  { rewrite N.land_ones. change (2 ^ 8) with 256. lia. }
  rewrite table_entry by exact Hlt.
  assert (N.lxor c p = N.lxor (N.land (N.lxor c p) (N.ones 8)) (N.shiftr c 8 * 2 ^ N.of_nat 8)) as E.
  { apply N.bits_inj. intros i. rewrite !N.lxor_spec, N.land_spec, N.lxor_spec.
    change (N.of_nat 8) with 8.
    assert (8 <= i -> N.testbit p i = false) as Hpi.
    { intros Hi. unfold is_byte in Hp. destruct (N.eq_dec p 0) as [->|Hp0]; [apply N.bits_0|].
      apply N.bits_above_log2. apply N.lt_le_trans with 8; [|exact Hi]. apply N.log2_lt_pow2; [lia|exact Hp]. }
    destruct (N.lt_ge_cases i 8) as [Hi|Hi].
    - rewrite N.ones_spec_low by exact Hi. rewrite N.mul_pow2_bits_low by exact Hi.
      rewrite andb_true_r, xorb_false_r. reflexivity.
    - rewrite N.ones_spec_high by exact Hi. rewrite N.mul_pow2_bits_high by exact Hi.
      rewrite N.shiftr_spec', Hpi by exact Hi. replace (i - 8 + 8) with i by lia.
      rewrite andb_false_r. destruct (N.testbit c i); reflexivity. }
  rewrite E at 2. rewrite crc_rounds_xor, crc_rounds_shift. reflexivity.
Qed.

Lemma crc_fold_serial data : all_bytes data -> forall c,
  fold_left crc_update data c = fold_left bit_step (message_bits data) c.
Proof.
  induction 1 as [|p data Hp H IH]; intros c; [reflexivity|]. unfold message_bits. cbn [fold_left flat_map].
  rewrite fold_left_app, IH, <- crc_update_serial by exact Hp. reflexivity.
Qed.

(** ** polynomial division *)
Lemma division_step_bit r b i : N.testbit (division_step r b) i =
  let bit j := if j =? 0 then b else N.testbit r (j - 1) in
  xorb (bit i) (bit 32 && N.testbit castagnoli i).
Proof.
  assert (forall j, N.testbit (2 * r + N.b2n b) j = if j =? 0 then b else N.testbit r (j - 1)) as H.
  { intros j. destruct (N.eqb_spec j 0) as [->|Hj].
    - rewrite N.testbit_0_r. reflexivity.
    - replace j with (N.succ (j - 1)) at 1 by lia. rewrite N.testbit_succ_r. reflexivity. }
  unfold division_step. cbv zeta. rewrite (H 32). destruct (if 32 =? 0 then b else N.testbit r (32 - 1)).
  - rewrite N.lxor_spec, H. reflexivity.
  - rewrite H. cbn [andb]. rewrite xorb_false_r. reflexivity.
Qed.

Lemma division_step_xor r1 b1 r2 b2 :
  division_step (N.lxor r1 r2) (xorb b1 b2) = N.lxor (division_step r1 b1) (division_step r2 b2).
Proof.
  apply N.bits_inj. intros i. rewrite N.lxor_spec, !division_step_bit. cbv zeta beta.
  change (32 =? 0) with false. cbv iota. rewrite !N.lxor_spec.
  destruct (i =? 0), b1, b2, (N.testbit r1 (i-1)), (N.testbit r2 (i-1)), (N.testbit r1 (32-1)), (N.testbit r2 (32-1)), (N.testbit castagnoli i); reflexivity.
Qed.

Definition D (r : N) (s : list bool) : N := fold_left division_step s r.
Definition xorl (a b : list bool) : list bool := map2 xorb a b.
Definition zeros (n : nat) : list bool := repeat false n.

Lemma D_app r a b : D r (a ++ b) = D (D r a) b.
Proof. apply fold_left_app. Qed.
Lemma D_xor s1 s2 : length s1 = length s2 -> forall r1 r2,
  D (N.lxor r1 r2) (xorl s1 s2) = N.lxor (D r1 s1) (D r2 s2).
Proof.
  revert s2; induction s1 as [|b1 s1 IH]; intros [|b2 s2] H r1 r2; cbn in H; try discriminate; [reflexivity|].
  unfold D, xorl in *. cbn [map2 fold_left]. rewrite division_step_xor. apply IH. lia.
Qed.

(** bits of a word, most significant first *)
Fixpoint wbits (k : nat) (w : N) : list bool :=
  match k with O => [] | S k' => N.testbit w (N.of_nat k') :: wbits k' w end.
Lemma wbits_length k w : length (wbits k w) = k.
Proof. induction k; cbn; auto. Qed.
Lemma wbits_xor k a b : wbits k (N.lxor a b) = xorl (wbits k a) (wbits k b).
Proof. unfold xorl. induction k as [|k IH]; cbn [wbits map2]; [reflexivity|]. rewrite N.lxor_spec, IH. reflexivity. Qed.
Lemma wbits_ext k a b : (forall i, i < N.of_nat k -> N.testbit a i = N.testbit b i) -> wbits k a = wbits k b.
Proof.
  induction k as [|k IH]; intros H; cbn [wbits]; [reflexivity|]. f_equal; [apply H; lia|].
  apply IH. intros; apply H; lia.
Qed.
Lemma wbits_snoc k w : wbits (S k) w = wbits k (N.div2 w) ++ [N.testbit w 0].
Proof.
  induction k as [|k IH]; [reflexivity|].
  change (wbits (S (S k)) w) with (N.testbit w (N.of_nat (S k)) :: wbits (S k) w).
  rewrite IH. cbn [wbits app]. f_equal. rewrite N.div2_spec, N.shiftr_spec'. f_equal. lia.
Qed.
Lemma wbits_0 k : wbits k 0 = zeros k.
Proof. unfold zeros. induction k as [|k IH]; cbn [wbits repeat]; [reflexivity|]. rewrite N.bits_0, IH. reflexivity. Qed.

Definition shl (w : N) : N := N.land (2 * w) (N.ones 32).
Lemma shl_bit w i : N.testbit (shl w) i = (i <? 32) && (negb (i =? 0) && N.testbit w (i - 1)).
Proof.
  unfold shl. rewrite N.land_spec. destruct (N.ltb_spec i 32) as [Hi|Hi].
  - rewrite N.ones_spec_low by exact Hi. rewrite andb_true_r. cbn [andb].
    destruct (N.eqb_spec i 0) as [->|Hi0]; [rewrite N.testbit_even_0; reflexivity|].
    cbn [negb andb]. replace i with (N.succ (i - 1)) at 1 by lia. apply N.testbit_even_succ. lia.
  - rewrite N.ones_spec_high by exact Hi. rewrite andb_false_r. reflexivity.
Qed.
Lemma wbits_shl w : wbits 32 (shl w) = wbits 31 w ++ [false].
Proof.
  rewrite wbits_snoc. f_equal; [|rewrite shl_bit; reflexivity]. apply wbits_ext. intros i Hi.
  change (N.of_nat 31) with 31 in Hi.
  rewrite N.div2_spec, N.shiftr_spec', shl_bit.
  destruct (N.ltb_spec (i + 1) 32); [|lia]. destruct (N.eqb_spec (i + 1) 0); [lia|]. cbn. f_equal. lia.
Qed.

Lemma plain_mono bits : forall r, r <= fold_left (fun r b => 2 * r + N.b2n b) bits r.
Proof.
  induction bits as [|b bits IH]; intros r; cbn [fold_left]; [lia|]. specialize (IH (2 * r + N.b2n b)). lia.
Qed.
Lemma D_plain bits : forall r, word (fold_left (fun r b => 2 * r + N.b2n b) bits r) ->
  D r bits = fold_left (fun r b => 2 * r + N.b2n b) bits r.
Proof.
  induction bits as [|b bits IH]; intros r H; [reflexivity|]. unfold D in *. cbn [fold_left] in *.
  pose proof (@plain_mono bits (2 * r + N.b2n b)) as Hm.
  rewrite <- IH by exact H. f_equal. unfold division_step. cbv zeta.
  assert (word (2 * r + N.b2n b)) as Hw by (unfold word in *; lia). rewrite word_bits in Hw.
  rewrite Hw by lia. reflexivity.
Qed.
Lemma plain_wbits k : forall w, fold_left (fun r b => 2 * r + N.b2n b) (wbits k w) 0 = w mod 2 ^ N.of_nat k.
Proof.
  induction k as [|k IH]; intros w; [change (2 ^ N.of_nat 0) with 1; rewrite N.mod_1_r; reflexivity|].
  rewrite wbits_snoc, fold_left_app, IH. cbn [fold_left]. rewrite N.div2_div, N.bit0_mod.
  replace (N.of_nat (S k)) with (N.succ (N.of_nat k)) by lia. rewrite N.pow_succ_r'.
  rewrite N.mod_mul_r by (try apply N.pow_nonzero; lia). lia.
Qed.
Lemma D_word w : word w -> D 0 (wbits 32 w) = w.
Proof.
  intros H. assert (fold_left (fun r b => 2 * r + N.b2n b) (wbits 32 w) 0 = w) as E.
  { rewrite plain_wbits. apply N.mod_small. exact H. }
  rewrite D_plain; rewrite E; [reflexivity|exact H].
Qed.

(** the register form of the division *)
Definition glow : N := N.land castagnoli (N.ones 32).
Definition wstep (w : N) (b : bool) : N :=
  N.lxor (shl w) (if xorb (N.testbit w 31) b then glow else 0).
Definition front (w : N) (m : list bool) : list bool :=
  xorl (wbits 32 w ++ zeros (length m)) (m ++ zeros 32).

Lemma xorl_length a b : length a = length b -> length (xorl a b) = length a.
Proof. unfold xorl. intros. rewrite map2_length; lia. Qed.
Lemma xorl_zeros s : xorl s (zeros (length s)) = s.
Proof. unfold xorl, zeros. induction s as [|b s IH]; cbn; [reflexivity|]. rewrite IH, xorb_false_r. reflexivity. Qed.
Lemma xorl_app a1 a2 b1 b2 : length a1 = length b1 -> xorl (a1 ++ a2) (b1 ++ b2) = xorl a1 b1 ++ xorl a2 b2.
Proof. unfold xorl. revert b1; induction a1 as [|x a1 IH]; intros [|y b1] H; cbn in H |- *; try discriminate; auto. rewrite IH by lia. reflexivity. Qed.
Lemma xorl_assoc a b c : xorl (xorl a b) c = xorl a (xorl b c).
Proof. unfold xorl. revert b c; induction a as [|x a IH]; intros [|y b] [|z c]; cbn; auto. rewrite IH, xorb_assoc. reflexivity. Qed.
Lemma xorl_comm a b : xorl a b = xorl b a.
Proof. unfold xorl. revert b; induction a as [|x a IH]; intros [|y b]; cbn; auto. rewrite IH, xorb_comm. reflexivity. Qed.
Lemma zeros_length n : length (zeros n) = n. Proof. apply repeat_length. Qed.
Lemma zeros_app a b : zeros (a + b) = zeros a ++ zeros b. Proof. apply repeat_app. Qed.

Lemma D_front w : word w -> forall m, D 0 (front w m) = fold_left wstep m w.
Proof.
  intros Hw m. revert w Hw. induction m as [|b m IH]; intros w Hw.
  - unfold front. cbn [length app fold_left]. change (zeros 0) with (@nil bool). rewrite app_nil_r.
    rewrite <- (wbits_length 32 w) at 2. rewrite xorl_zeros. apply D_word. exact Hw.
  - cbn [fold_left].
    assert (word glow) as Hg by reflexivity.
    assert (word (wstep w b)) as Hw'.
    { unfold wstep. apply word_xor; [|destruct (xorb _ _); [exact Hg|reflexivity]].
      apply word_bits. intros i Hi. rewrite shl_bit. destruct (N.ltb_spec i 32); [lia|reflexivity]. }
    rewrite <- IH by exact Hw'. clear IH.
    set (t := xorb (N.testbit w 31) b) in *.
    assert (front w (b :: m) = t :: front (shl w) m) as ->.
    { unfold front. change (wbits 32 w) with (N.testbit w 31 :: wbits 31 w). cbn [app length].
      unfold xorl at 1. cbn [map2]. fold xorl. f_equal. fold (xorl (wbits 31 w ++ zeros (S (length m))) (m ++ zeros 32)).
      rewrite wbits_shl, <- app_assoc. reflexivity. }
    unfold D at 1. cbn [fold_left]. fold (D (division_step 0 t) (front (shl w) m)).
    assert (division_step 0 t = N.lxor 0 (N.b2n t)) as -> by (destruct t; reflexivity).
    assert (length (front (shl w) m) = (32 + length m)%nat) as Hlf.
    { unfold front. rewrite xorl_length; rewrite !app_length, ?wbits_length, ?zeros_length; lia. }
    rewrite <- (xorl_zeros (front (shl w) m)), Hlf.
    rewrite D_xor by (rewrite zeros_length; exact Hlf).
    assert (D (N.b2n t) (zeros (32 + length m)) = D 0 (wbits 32 (if t then glow else 0) ++ zeros (length m))) as ->.
    { rewrite zeros_app, !D_app. f_equal. rewrite D_word by (destruct t; reflexivity). destruct t; reflexivity. }
    rewrite <- D_xor by (rewrite app_length, wbits_length, zeros_length; exact Hlf).
    f_equal. unfold front, wstep. fold t. rewrite wbits_xor.
    rewrite xorl_comm, <- xorl_assoc. f_equal.
    rewrite xorl_app by (rewrite !wbits_length; reflexivity). rewrite xorl_comm.
    f_equal. rewrite <- (zeros_length (length m)) at 2. apply xorl_zeros.
Qed.

(** ** reflection *)
Lemma bits_value_bit bits : forall i, N.testbit (bits_value bits) i = nth (N.to_nat i) bits false.
Proof.
  induction bits as [|b bits IH]; intros i; cbn [bits_value].
  - rewrite N.bits_0. destruct (N.to_nat i); reflexivity.
  - rewrite N.add_comm. destruct (N.eq_dec i 0) as [->|Hi].
    + rewrite N.testbit_0_r. reflexivity.
    + replace i with (N.succ (i - 1)) at 1 by lia. rewrite N.testbit_succ_r, IH.
      replace (N.to_nat i) with (S (N.to_nat (i - 1))) by lia. reflexivity.
Qed.
Lemma reflect32_bit r i : N.testbit (reflect32 r) i = (i <? 32) && N.testbit r (31 - i).
Proof.
  unfold reflect32. rewrite bits_value_bit. destruct (N.ltb_spec i 32) as [Hi|Hi].
  - set (f := fun i => N.testbit r (31 - N.of_nat i)).
    rewrite nth_indep with (d' := f 0%nat) by (rewrite map_length, seq_length; lia).
    rewrite map_nth, seq_nth by lia. unfold f. cbn [andb]. f_equal. lia.
  - rewrite nth_overflow; [reflexivity|]. rewrite map_length, seq_length. lia.
Qed.

Lemma poly_reflect i : i < 32 -> N.testbit crc_poly i = N.testbit castagnoli (31 - i).
Proof.
  intros H. assert (forallb (fun n => Bool.eqb (N.testbit crc_poly (N.of_nat n)) (N.testbit castagnoli (31 - N.of_nat n))) (seq 0 32) = true) as E
    by (vm_compute; reflexivity).
  rewrite forallb_forall in E. specialize (E (N.to_nat i)). rewrite N2Nat.id in E. apply eqb_prop. apply E.
  apply in_seq. lia.
Qed.

Lemma reflect_step w b : reflect32 (wstep w b) = bit_step (reflect32 w) b.
Proof.
  apply N.bits_inj. intros i. rewrite reflect32_bit. unfold bit_step. rewrite crc_round_bit, !N.lxor_spec, !reflect32_bit.
  assert (N.testbit (N.b2n b) (i + 1) = false) as ->.
  { destruct b; cbn [N.b2n]; [|apply N.bits_0]. apply N.bits_above_log2. cbn. lia. }
  assert (N.testbit (N.b2n b) 0 = b) as -> by (destruct b; reflexivity).
  change (0 <? 32) with true. cbn [andb]. change (31 - 0) with 31. rewrite xorb_false_r.
  destruct (N.ltb_spec i 32) as [Hi|Hi].
  - rewrite poly_reflect by exact Hi. cbn [andb]. unfold wstep. rewrite N.lxor_spec, shl_bit.
    destruct (N.ltb_spec (31 - i) 32); [|lia]. cbn [andb].
    assert (forall x y : bool, x = y -> xorb x (N.testbit (if xorb (N.testbit w 31) b then glow else 0) (31 - i)) =
      xorb y (xorb (N.testbit w 31) b && N.testbit castagnoli (31 - i))) as Hx.
    { intros x y ->. f_equal. destruct (xorb _ b); [|rewrite N.bits_0; reflexivity].
      unfold glow. rewrite N.land_spec, N.ones_spec_low by lia. rewrite andb_true_r. reflexivity. }
    apply Hx. destruct (N.eqb_spec (31 - i) 0) as [E0|E0].
    + destruct (N.ltb_spec (i + 1) 32); [lia|]. reflexivity.
    + destruct (N.ltb_spec (i + 1) 32); [|lia]. cbn. f_equal. lia.
  - destruct (N.ltb_spec (i + 1) 32); [lia|]. cbn [andb].
    assert (word crc_poly) as Hp by reflexivity. rewrite word_bits in Hp. rewrite Hp by exact Hi.
    rewrite andb_false_r. reflexivity.
Qed.
Lemma reflect_fold m : forall w, reflect32 (fold_left wstep m w) = fold_left bit_step m (reflect32 w).
Proof. induction m as [|b m IH]; intros w; cbn [fold_left]; [reflexivity|]. rewrite IH, reflect_step. reflexivity. Qed.

Lemma invert_front m : invert_first_32 (m ++ repeat false 32) = front 0xFFFFFFFF m.
Proof.
  unfold invert_first_32, front.
  change (wbits 32 4294967295) with (repeat true 32).
  assert (forall k s, (k <= length s)%nat -> map negb (firstn k s) ++ skipn k s = xorl (repeat true k ++ zeros (length s - k)) s) as H.
  { induction k as [|k IH]; intros s Hk.
    - cbn [firstn skipn map app repeat]. rewrite Nat.sub_0_r, xorl_comm. symmetry. apply xorl_zeros.
    - destruct s as [|b s]; cbn in Hk; [lia|]. cbn [firstn skipn map app repeat length Nat.sub].
      unfold xorl in *. cbn [map2]. rewrite IH by lia. destruct b; reflexivity. }
  rewrite H by (rewrite app_length, repeat_length; lia). f_equal. f_equal. f_equal.
  rewrite app_length, repeat_length. lia.
Qed.

(** ** the theorems *)
Theorem crc32c_is_castagnoli data : all_bytes data -> crc32c data 0 = crc32c_spec data.
Proof.
  intros H. unfold crc32c, crc32c_spec, poly_rem, not32. rewrite crc_fold_serial by exact H.
  rewrite invert_front. fold (D 0 (front 4294967295 (message_bits data))).
  rewrite D_front by reflexivity. rewrite reflect_fold. reflexivity.
Qed.

Lemma not32_invol x : not32 (not32 x) = x.
Proof. unfold not32. rewrite N.lxor_assoc, N.lxor_nilpotent, N.lxor_0_r. reflexivity. Qed.

Theorem crc32c_continue a b seed : crc32c (a ++ b) seed = crc32c b (crc32c a seed).
Proof. unfold crc32c. rewrite fold_left_app, not32_invol. reflexivity. Qed.

Lemma bits_xor_eq p e1 e2 q c : length e1 = length e2 ->
  N.lxor (fold_left bit_step (p ++ e1 ++ q) c) (fold_left bit_step (p ++ e2 ++ q) c) =
  crc_rounds (length q) (crc_rounds (length e1) (N.lxor (bits_value e1) (bits_value e2))).
Proof.
  intros H. rewrite !fold_left_app. set (c1 := fold_left bit_step p c).
  rewrite (bits_serial q), (bits_serial e1), (bits_serial q), (bits_serial e2).
  rewrite <- H, <- crc_rounds_xor. f_equal.
  rewrite !crc_rounds_xor. set (x := crc_rounds _ c1).
  apply N.bits_inj. intros i. rewrite !N.lxor_spec.
  destruct (N.testbit x i), (N.testbit (bits_value q) i), (N.testbit (crc_rounds _ (bits_value e1)) i), (N.testbit (crc_rounds _ (bits_value e2)) i); reflexivity.
Qed.
Lemma bits_value_bound bits : bits_value bits < 2 ^ lenN bits.
Proof.
  induction bits as [|b bits IH]; cbn [bits_value]; [cbv; reflexivity|].
  rewrite lenN_cons, N.add_1_r, N.pow_succ_r'. destruct b; cbn [N.b2n]; lia.
Qed.
Lemma bits_value_inj a : forall b, length a = length b -> bits_value a = bits_value b -> a = b.
Proof.
  induction a as [|x a IH]; intros [|y b] Hl E; cbn in Hl; try discriminate; [reflexivity|].
  cbn [bits_value] in E. assert (x = y) as -> by (destruct x, y; cbn [N.b2n] in E; auto; lia).
  f_equal. apply IH; lia.
Qed.

(** A change confined to 32 consecutive bits always changes the register. *)
Lemma burst_register p e1 e2 q c : length e1 = length e2 -> (length e1 <= 32)%nat -> e1 <> e2 ->
  fold_left bit_step (p ++ e1 ++ q) c <> fold_left bit_step (p ++ e2 ++ q) c.
Proof.
  intros Hl H32 Hne E. apply Hne. apply bits_value_inj; [exact Hl|]. apply N.lxor_eq.
  assert (word (N.lxor (bits_value e1) (bits_value e2))) as Hw.
  { apply word_xor; unfold word.
    - eapply N.lt_le_trans; [apply bits_value_bound|]. apply N.pow_le_mono_r; unfold lenN; lia.
    - eapply N.lt_le_trans; [apply bits_value_bound|]. apply N.pow_le_mono_r; unfold lenN; lia. }
  apply (@crc_rounds_nonzero (length e1)); [exact Hw|].
  apply (@crc_rounds_nonzero (length q)); [apply word_rounds; exact Hw|].
  rewrite <- (bits_xor_eq p q c Hl), E. apply N.lxor_nilpotent.
Qed.

Lemma message_bits_app a b : message_bits (a ++ b) = message_bits a ++ message_bits b.
Proof. apply flat_map_app. Qed.
Lemma message_bits_inj a : forall b, all_bytes a -> all_bytes b -> message_bits a = message_bits b -> a = b.
Proof.
  induction a as [|x a IH]; intros [|y b] Ha Hb E; try discriminate; [reflexivity|].
  inversion Ha; inversion Hb; subst. unfold message_bits in E. cbn [flat_map] in E.
  apply (f_equal (firstn 8)) in E as E1. apply (f_equal (skipn 8)) in E as E2.
  change (byte_bits x = byte_bits y) in E1. change (message_bits a = message_bits b) in E2.
  f_equal; [|apply IH; assumption].
  rewrite <- (@byte_bits_value x), <- (@byte_bits_value y) by assumption. rewrite E1. reflexivity.
Qed.
Lemma message_bits_length a : length (message_bits a) = (8 * length a)%nat.
Proof. induction a as [|x a IH]; [reflexivity|]. unfold message_bits in *. cbn [flat_map]. rewrite app_length, IH. cbn. lia. Qed.

Theorem crc32c_burst a b p e1 e2 q : all_bytes a -> all_bytes b -> a <> b ->
  message_bits a = p ++ e1 ++ q -> message_bits b = p ++ e2 ++ q ->
  length e1 = length e2 -> (length e1 <= 32)%nat ->
  crc32c a 0 <> crc32c b 0.
Proof.
  intros Ha Hb Hne Ea Eb Hl H32 E. unfold crc32c in E.
  apply (f_equal not32) in E. rewrite !not32_invol in E.
  rewrite !crc_fold_serial, Ea, Eb in E by assumption.
  apply (burst_register (p := p) (q := q) Hl H32 (c := not32 0)); [|exact E].
  intros ->. apply Hne. apply message_bits_inj; try assumption. congruence.
Qed.

(** ** the register over data followed by its own checksum is a constant *)
Lemma crc_word data seed : all_bytes data -> word seed -> word (crc32c data seed).
Proof.
  intros H Hs. unfold crc32c. rewrite crc_fold_serial, bits_serial by exact H.
  apply word_xor; [|reflexivity].
  assert (forall bits c, word c -> word (fold_left bit_step bits c)) as Hf.
  { induction bits as [|b bits IH]; intros c Hc; [exact Hc|]. cbn [fold_left]. apply IH.
    apply word_round. apply word_xor; [exact Hc|]. destruct b; reflexivity. }
  rewrite <- bits_serial. apply Hf. apply word_xor; [exact Hs|reflexivity].
Qed.

Definition residue : N := crc_rounds 32 0xFFFFFFFF.

Lemma message_bits_value bs : all_bytes bs -> bits_value (message_bits bs) = value_le bs.
Proof.
  induction 1 as [|b bs Hb H IH]; [reflexivity|]. unfold message_bits in *. cbn [flat_map value_le].
  assert (forall l1 l2, bits_value (l1 ++ l2) = bits_value l1 + 2 ^ lenN l1 * bits_value l2) as Happ.
  { clear. induction l1 as [|b l1 IH]; intros l2; [change (2 ^ lenN (@nil bool)) with 1; cbn [bits_value app]; lia|].
    cbn [app bits_value]. rewrite IH, lenN_cons, N.add_1_r, N.pow_succ_r'. lia. }
  rewrite Happ, IH, byte_bits_value by exact Hb. reflexivity.
Qed.

Lemma stored_crc_register data crc : all_bytes data -> word crc ->
  (crc = crc32c data 0 <-> fold_left bit_step (message_bits (data ++ le_bytes 4 crc)) (not32 0) = residue).
Proof.
  intros Hd Hc. rewrite message_bits_app, fold_left_app. unfold crc32c.
  rewrite crc_fold_serial by exact Hd. set (r := fold_left bit_step (message_bits data) (not32 0)).
  assert (word r) as Hr.
  { pose proof (@crc_word data 0 Hd eq_refl) as H. unfold crc32c in H. rewrite crc_fold_serial in H by exact Hd.
    fold r in H. rewrite <- (not32_invol r). apply word_xor; [exact H|reflexivity]. }
  rewrite bits_serial, message_bits_value by apply le_bytes_all.
  rewrite <- of_le_value, of_le_le_small by exact Hc.
  rewrite message_bits_length, le_bytes_length. unfold residue. change (8 * 4)%nat with 32%nat. split.
  - intros ->. f_equal. unfold not32. rewrite <- N.lxor_assoc, N.lxor_nilpotent, N.lxor_0_l. reflexivity.
  - intros E. apply crc_rounds_inj in E; [|apply word_xor; assumption|reflexivity].
    apply N.lxor_eq. unfold not32. rewrite (N.lxor_comm r), <- N.lxor_assoc, (N.lxor_comm crc), N.lxor_assoc, (N.lxor_comm crc).
    rewrite E. reflexivity.
Qed.
