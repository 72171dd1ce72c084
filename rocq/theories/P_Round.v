(** Proofs about the rounding of numbers. *)
From Coq Require Import ZArith.
From Verif Require Import M_Base M_Bytes M_Format M_Mode M_Dataset M_Double M_Metadata M_Python M_Number
  S_Array S_Grid S_Bytes S_Dataset S_Access S_Python S_Number P_Base P_Bytes P_Metadata.
Import List ListNotations.
Local Open Scope Z_scope.

Lemma pow_split a b : 0 <= a -> 0 <= b -> 2 ^ (a + b) = 2 ^ a * 2 ^ b.
Proof. intros. now rewrite Z.pow_add_r. Qed.
Lemma pow_pos a : 0 <= a -> 0 < 2 ^ a.
Proof. intros. now apply Z.pow_pos_nonneg. Qed.
Lemma pow_le a b : a <= b -> 0 <= a -> 2 ^ a <= 2 ^ b.
Proof. intros. apply Z.pow_le_mono_r; lia. Qed.

(** The nearest multiple of [G]. *)
Definition goes_up (G R q : Z) : bool := (G <? 2 * R) || ((G =? 2 * R) && Z.odd q).
Lemma grid X G q R : X = q * G + R -> 0 <= R < G ->
  let q' := if goes_up G R q then q + 1 else q in
  forall j, Z.abs (X - q' * G) <= Z.abs (X - j * G) /\
    (Z.abs (X - q' * G) = Z.abs (X - j * G) -> j = q' \/ Z.Even q').
Proof.
  intros E H q' j. unfold goes_up in q'.
  assert (C : q' = q /\ 2 * R <= G /\ (2 * R = G -> Z.Even q) \/ q' = q + 1 /\ G <= 2 * R /\ (2 * R = G -> Z.Even (q + 1))).
  { unfold q'. destruct (Z.ltb_spec G (2 * R)) as [A|A]; cbn [orb]; [right; repeat split; try lia|].
    destruct (Z.eqb_spec G (2 * R)) as [B|B]; cbn [andb]; [|left; repeat split; lia].
    destruct (Z.odd q) eqn:O.
    - right. repeat split; try lia. intros _. apply Z.even_spec. rewrite Z.even_add, <- Z.negb_odd, O. reflexivity.
    - left. repeat split; try lia. intros _. apply Z.even_spec. now rewrite <- Z.negb_odd, O. }
  clearbody q'. subst X.
  assert (J : j <= q \/ q + 1 <= j) by lia.
  assert (D1 : j <= q -> j * G <= q * G /\ (j < q -> j * G <= q * G - G)) by nia.
  assert (D2 : q + 1 <= j -> (q + 1) * G <= j * G /\ (q + 1 < j -> q * G + 2 * G <= j * G)) by nia.
  replace ((q + 1) * G) with (q * G + G) in * by ring.
  destruct C as [(-> & B & T)|(-> & B & T)]; replace ((q + 1) * G) with (q * G + G) in * by ring.
  - split; [destruct J as [J|J]; [destruct (D1 J)|destruct (D2 J)]; lia|]. intros EQ.
    destruct J as [J|J].
    + left. destruct (D1 J) as [_ D]. destruct (Z.eq_dec j q); [assumption|]. specialize (D ltac:(lia)). lia.
    + right. apply T. destruct (D2 J). lia.
  - split; [destruct J as [J|J]; [destruct (D1 J)|destruct (D2 J)]; lia|]. intros EQ.
    destruct J as [J|J].
    + right. apply T. destruct (D1 J). lia.
    + left. destruct (D2 J) as [_ D]. destruct (Z.eq_dec j (q + 1)); [assumption|]. specialize (D ltac:(lia)). lia.
Qed.
(** ... is also next among the smaller numbers of a finer grid. *)
Lemma grid_low X G q R B Z0 : X = q * G + R -> 0 <= R < G -> B * G <= X -> Z0 < B * G ->
  let q' := if goes_up G R q then q + 1 else q in Z.abs (X - q' * G) < Z.abs (X - Z0).
Proof.
  intros E H HB HZ q'. destruct (@grid X G q R E H B) as [L _]. fold q' in L. lia.
Qed.

Lemma odd_fst n : Z.Odd (Zpos (fst (pstrip n))).
Proof.
  induction n as [n IH|n IH|]; cbn [pstrip fst]; [exists (Zpos n); lia|exact IH|now exists 0].
Qed.
Lemma log_fst n : Z.log2 (Zpos (fst (pstrip n))) + snd (pstrip n) = Z.log2 (Zpos n).
Proof. destruct (pstrip_ok n) as [P T]. pose proof (f_equal Z.log2 P) as L. rewrite Z.log2_mul_pow2 in L by lia. lia. Qed.

Section Rounding.
Variables mb eb : Z.
Hypothesis Hmb : 1 <= mb.
Hypothesis Heb : mb + 2 < 2 ^ (eb - 1).
Let M := 2 ^ (eb - 1).
Let least := 2 - M - mb.
Variables (p : positive) (e : Z).
Let l := Z.log2 (Zpos p).
Let k := Z.max 0 (Z.max (l - mb) (least - e)).
Let q := Zpos p / 2 ^ k.
Let r := Zpos p mod 2 ^ k.
Let q' := if goes_up (2 ^ k) r q then q + 1 else q.

Lemma split_p : Zpos p = q * 2 ^ k + r /\ 0 <= r < 2 ^ k /\ 0 <= q.
Proof.
  assert (K : 0 < 2 ^ k) by (apply pow_pos; lia). pose proof (Z.div_mod (Zpos p) (2 ^ k) ltac:(lia)) as D. fold q r in D.
  pose proof (Z.mod_pos_bound (Zpos p) (2 ^ k) K) as B. fold r in B. pose proof (Z.div_pos (Zpos p) (2 ^ k) ltac:(lia) K). fold q in H. lia.
Qed.
Lemma log_p : 2 ^ l <= Zpos p < 2 ^ (l + 1) /\ 0 <= l.
Proof. destruct (Z.log2_spec (Zpos p) ltac:(lia)). split; [exact (conj H H0)|apply Z.log2_nonneg]. Qed.
Lemma q_bound : q < 2 ^ (mb + 1).
Proof.
  destruct split_p as (E & R & Q). destruct log_p as [[_ L] L0].
  assert (K : 0 < 2 ^ k) by (apply pow_pos; lia).
  assert (P : 2 ^ (l + 1) <= 2 ^ (mb + 1) * 2 ^ k) by (rewrite <- pow_split by lia; apply pow_le; lia). nia.
Qed.
Lemma q'_cases : q' = q \/ q' = q + 1.
Proof. unfold q'. destruct goes_up; auto. Qed.

(** Every value of the format is a multiple, or smaller than every value with the exponent. *)
Lemma format_grid z K : 0 < k -> in_format mb eb z -> scaled K z -> K <= e ->
  (exists j, at_scale K z = j * (2 ^ k * 2 ^ (e - K))) \/
  2 ^ mb * (2 ^ k * 2 ^ (e - K)) <= Zpos p * 2 ^ (e - K) /\ Z.abs (at_scale K z) < 2 ^ mb * (2 ^ k * 2 ^ (e - K)).
Proof.
  intros Kp F S He. destruct z as [| | |s m f]; try (left; exists 0; reflexivity).
  cbn [scaled] in S. destruct F as (O & B & L & T). fold M in L, T. fold least in L.
  destruct (Z.le_gt_cases (k + e) f) as [C|C].
  - left. cbn [at_scale]. replace (f - K) with (k + (e - K) + (f - e - k)) by lia. rewrite (@pow_split (k + (e - K))), (@pow_split k) by lia.
    exists ((if s then -1 else 1) * (Zpos m * 2 ^ (f - e - k))). ring.
  - right. assert (KL : k = l - mb) by (unfold k in *; lia).
    destruct log_p as [[L1 L2] L0].
    assert (P1 : 2 ^ l = 2 ^ mb * 2 ^ k) by (rewrite <- pow_split by lia; f_equal; lia).
    pose proof (@pow_pos (e - K) ltac:(lia)) as PE. split; [nia|].
    assert (P2 : 2 ^ (mb + 1) * 2 ^ (f - K) <= 2 ^ mb * (2 ^ k * 2 ^ (e - K))) by (rewrite <- !pow_split by lia; apply pow_le; lia).
    pose proof (@pow_pos (f - K) ltac:(lia)) as PF. cbn [at_scale]. destruct s; nia.
Qed.

Definition result (s : bool) : dbl :=
  match q' with Zpos n => DFin s (fst (pstrip n)) (snd (pstrip n) + e + k) | _ => DZero s end.

Lemma result_scale s K : K <= e -> at_scale K (result s) = (if s then -1 else 1) * (q' * (2 ^ k * 2 ^ (e - K))).
Proof.
  intros H. unfold result. destruct split_p as (_ & _ & Q). destruct q' as [|n|n] eqn:E; [cbn [at_scale]; ring| |destruct q'_cases; lia].
  cbn [at_scale]. destruct (pstrip_ok n) as [P T]. replace (snd (pstrip n) + e + k - K) with (snd (pstrip n) + (k + (e - K))) by lia.
  rewrite (@pow_split (snd (pstrip n))), (@pow_split k) by lia.
  set (a := Zpos (fst (pstrip n))) in *. set (b := 2 ^ snd (pstrip n)) in *. rewrite P. ring.
Qed.
Lemma q'_bound : q' <= 2 ^ (mb + 1) /\ 0 <= q'.
Proof. pose proof q_bound. destruct split_p as (_ & _ & Q). destruct q'_cases; lia. Qed.

Lemma result_format s : Z.log2 q' + e + k < M -> in_format mb eb (result s).
Proof.
  intros H. unfold result. destruct q' as [|n|n] eqn:E; try exact Logic.I. cbn [in_format]. split; [apply odd_fst|].
  destruct q'_bound as [B _]. rewrite E in B. destruct (pstrip_ok n) as [P T]. pose proof (log_fst n) as LF. fold M least.
  assert (PM : 0 < 2 ^ mb) by (apply pow_pos; lia). assert (PS : 2 ^ (mb + 1) = 2 * 2 ^ mb) by (rewrite pow_split by lia; lia).
  split; [|split; unfold k in *; lia].
  destruct (Z.eq_dec (snd (pstrip n)) 0) as [Z0|Z0].
  - rewrite Z0, Z.pow_0_r, Z.mul_1_r in P. destruct (odd_fst n) as [j J]. lia.
  - replace (snd (pstrip n)) with (1 + (snd (pstrip n) - 1)) in P by lia. rewrite pow_split in P by lia.
    pose proof (@pow_pos (snd (pstrip n) - 1) ltac:(lia)). change (2 ^ 1) with 2 in P. nia.
Qed.
Lemma result_even s : Z.Even q' -> even_in mb eb (result s).
Proof.
  intros [j J]. unfold result. destruct q' as [|n|n] eqn:E; try exact Logic.I. cbn [even_in]. fold M least.
  destruct (pstrip_ok n) as [P T]. pose proof (log_fst n) as LF.
  assert (S1 : 1 <= snd (pstrip n)).
  { destruct (Z.eq_dec (snd (pstrip n)) 0) as [Z0|Z0]; [|lia]. rewrite Z0, Z.pow_0_r, Z.mul_1_r in P. destruct (odd_fst n) as [i I']. lia. }
  destruct q'_bound as [B _]. rewrite E in B.
  assert (LN : Z.log2 (Zpos n) <= mb + 1) by (rewrite <- (Z.log2_pow2 (mb + 1)) by lia; now apply Z.log2_le_mono).
  destruct (Z.eq_dec (Z.log2 (Zpos n)) (mb + 1)) as [C|C]; [|unfold k in *; lia].
  (* the power of two *)
  destruct (Z.log2_spec (Zpos n) ltac:(lia)) as [LL _]. rewrite C in LL. assert (EN : Zpos n = 1 * 2 ^ (mb + 1)) by lia.
  assert (PN : pstrip n = (1%positive, mb + 1)) by (apply pstrip_shift; [exists 1%positive; auto|lia|exact EN]).
  rewrite PN in *. cbn [fst snd] in *. change (Z.log2 1) with 0. unfold k in *. lia.
Qed.

Lemma result_nearest s : Z.log2 q' + e + k < M -> nearest mb eb (DFin s p e) (result s).
Proof.
  intros H. split; [now apply result_format|]. split; [unfold result; destruct q'; exact Logic.I|].
  intros z K F Fin S1 S2 S3. cbn [scaled] in S1. rewrite result_scale by assumption. cbn [at_scale].
  destruct split_p as (E & R & Q). set (T := 2 ^ (e - K)). assert (PT : 0 < T) by (apply pow_pos; lia).
  assert (PK : 0 < 2 ^ k) by (apply pow_pos; lia).
  destruct (Z.eq_dec k 0) as [K0|K0].
  - assert (QP : q' = Zpos p).
    { assert (q = Zpos p /\ r = 0) as [Q1 R0] by (rewrite K0, Z.pow_0_r in E, R; lia). unfold q', goes_up. rewrite R0, K0, Q1. reflexivity. }
    rewrite QP, K0, Z.pow_0_r, Z.mul_1_l, Z.sub_diag. split; [apply Z.abs_nonneg|]. intros EQ. left. fold T in EQ. cbn [Z.abs] in EQ. lia.
  - assert (EX : Zpos p * T = q * (2 ^ k * T) + r * T) by (rewrite E; ring).
    assert (RX : 0 <= r * T < 2 ^ k * T) by nia.
    assert (GU : goes_up (2 ^ k * T) (r * T) q = goes_up (2 ^ k) r q).
    { unfold goes_up. f_equal; [|f_equal].
      - destruct (Z.ltb_spec (2 ^ k * T) (2 * (r * T))), (Z.ltb_spec (2 ^ k) (2 * r)); try reflexivity; nia.
      - destruct (Z.eqb_spec (2 ^ k * T) (2 * (r * T))), (Z.eqb_spec (2 ^ k) (2 * r)); try reflexivity; nia. }
    destruct (@format_grid z K ltac:(unfold k in *; lia) F S3 S1) as [[j J]|[LO HI]]; [fold T in J|fold T in LO, HI].
    + rewrite J. pose proof (@grid _ _ _ _ EX RX (if s then - j else j)) as [G1 G2]. rewrite GU in G1, G2. fold q' in G1, G2.
      assert (A : forall i, Z.abs ((if s then -1 else 1) * (Zpos p * T) - (if s then -1 else 1) * (i * (2 ^ k * T))) = Z.abs (Zpos p * T - i * (2 ^ k * T))) by (intros; destruct s; lia).
      assert (A' : Z.abs ((if s then -1 else 1) * (Zpos p * T) - j * (2 ^ k * T)) = Z.abs (Zpos p * T - (if s then - j else j) * (2 ^ k * T))) by (destruct s; lia).
      rewrite A, A'. split; [exact G1|]. intros EQ. destruct (G2 EQ) as [EJ|EV]; [left|right; now apply result_even].
      rewrite <- EJ. destruct s; lia.
    + pose proof (@grid_low (Zpos p * T) (2 ^ k * T) q (r * T) (2 ^ mb) (if s then - at_scale K z else at_scale K z) EX RX LO) as G.
      specialize (G ltac:(destruct s; lia)). cbv zeta in G. rewrite GU in G. fold q' in G.
      assert (A : Z.abs ((if s then -1 else 1) * (Zpos p * T) - (if s then -1 else 1) * (q' * (2 ^ k * T))) < Z.abs ((if s then -1 else 1) * (Zpos p * T) - at_scale K z)) by (destruct s; lia).
      split; lia.
Qed.

(** Overflow. *)
Lemma log_q' n : 0 <= n -> 0 < q' -> (n <= Z.log2 q' <-> 2 ^ n <= q').
Proof. intros. apply iff_sym. now apply Z.log2_le_pow2. Qed.
Lemma overflow s : M <= Z.log2 q' + e + k <-> too_large mb eb (DFin s p e).
Proof.
  unfold too_large. fold M. set (top := M - mb - 2). destruct split_p as (E & R & Q). destruct log_p as [[L1 L2] L0].
  destruct q'_bound as [B0 B1]. pose proof q_bound as BQ.
  assert (PM : 2 ^ (mb + 1) = 2 * 2 ^ mb) by (rewrite pow_split by lia; lia).
  assert (PM2 : 2 ^ (mb + 2) = 4 * 2 ^ mb) by (rewrite pow_split by lia; lia).
  assert (P0 : 2 <= 2 ^ mb) by (change 2 with (2 ^ 1) at 1; apply pow_le; lia).
  assert (LQ : Z.log2 q' <= mb + 1) by (rewrite <- (Z.log2_pow2 (mb + 1)) by lia; now apply Z.log2_le_mono).
  fold M in Heb.
  destruct (Z.eq_dec k 0) as [K0|K0].
  - assert (QP : q' = Zpos p).
    { assert (q = Zpos p /\ r = 0) as [Q1 R0] by (rewrite K0, Z.pow_0_r in E, R; lia). unfold q', goes_up. rewrite R0, K0, Q1. reflexivity. }
    rewrite QP, K0, Z.add_0_r. fold l. assert (LM : l <= mb) by (unfold k in K0; lia). split.
    + intros H. rewrite Z.min_r, Z.sub_diag, Z.pow_0_r by lia.
      assert (P1 : 2 ^ (mb + 2) <= 2 ^ l * 2 ^ (e - top)) by (rewrite <- pow_split by lia; apply pow_le; lia).
      pose proof (@pow_pos (e - top) ltac:(lia)). nia.
    + intros H. destruct (Z.le_gt_cases M (l + e)) as [C|C]; [exact C|exfalso].
      destruct (Z.le_gt_cases top e) as [D|D].
      * rewrite Z.min_r, Z.sub_diag, Z.pow_0_r in H by lia.
        pose proof (@pow_pos (e - top) ltac:(lia)) as PE.
        destruct (Z.eq_dec e top) as [D'|D'].
        -- rewrite D', Z.sub_diag, Z.pow_0_r in H. assert (2 ^ (l + 1) <= 2 ^ (mb + 1)) by (apply pow_le; lia). lia.
        -- assert (P1 : 2 ^ (l + 1) * 2 ^ (e - top) <= 2 ^ (mb + 2)) by (rewrite <- pow_split by lia; apply pow_le; lia).
           assert (P2 : 2 <= 2 ^ (e - top)) by (change 2 with (2 ^ 1) at 1; apply pow_le; lia). nia.
      * rewrite Z.min_l, Z.sub_diag, Z.pow_0_r in H by lia.
        pose proof (@pow_pos (top - e) ltac:(lia)) as PE. assert (2 ^ (l + 1) <= 2 ^ (mb + 1)) by (apply pow_le; lia). nia.
  - assert (PK : 0 < 2 ^ k) by (apply pow_pos; lia).
    assert (KP : 0 < k) by (unfold k in *; lia).
    destruct (Z.le_gt_cases (e + k) (top)) as [C|C].
    + (* far below *)
      split; [intros H; exfalso; lia|]. intros H. exfalso.
      rewrite Z.min_l, Z.sub_diag, Z.pow_0_r in H by lia.
      assert (P1 : 2 ^ k * 1 <= 2 ^ (top - e)) by (rewrite Z.mul_1_r; apply pow_le; lia). nia.
    + assert (KL : k = l - mb) by (unfold k, least in *; lia).
      assert (PL : 2 ^ l = 2 ^ mb * 2 ^ k) by (rewrite <- pow_split by lia; f_equal; lia).
      assert (QL : 2 ^ mb <= q) by nia.
      assert (Q'L : 2 ^ mb <= q') by (destruct q'_cases; lia).
      assert (LL : mb <= Z.log2 q') by (apply log_q'; lia).
      destruct (Z.eq_dec (e + k) (top + 1)) as [D|D].
      * (* the last exponent *)
        replace (M <= Z.log2 q' + e + k) with (M <= Z.log2 q' + (e + k)) by (f_equal; lia).
        assert (X : M <= Z.log2 q' + (e + k) <-> mb + 1 <= Z.log2 q') by lia. rewrite X, log_q' by lia. clear X.
        destruct (Z.le_gt_cases top e) as [F|F].
        -- assert (e = top /\ k = 1) as [-> K1] by lia. rewrite Z.min_id, Z.sub_diag, Z.pow_0_r.
           rewrite K1 in *. change (2 ^ 1) with 2 in *. assert (R01 : r = 0 \/ r = 1) by lia.
           destruct (Z.eq_dec q (2 ^ (mb + 1) - 1)) as [QT|QT].
           ++ assert (QO : Z.odd q = true).
              { rewrite QT, PM. apply Z.odd_spec. exists (2 ^ mb - 1). lia. }
              unfold q', goes_up. rewrite QO, K1. destruct R01 as [R1|R1]; rewrite R1 in *; cbn; lia.
           ++ assert (q' < 2 ^ (mb + 1)) by (unfold q', goes_up; rewrite K1; destruct R01 as [R1|R1]; rewrite R1; cbn; destruct (Z.odd q); lia). lia.
        -- rewrite Z.min_l, Z.sub_diag, Z.pow_0_r by lia.
           assert (PT : 2 ^ k = 2 * 2 ^ (top - e)) by (replace k with (1 + (top - e)) by lia; rewrite pow_split by lia; reflexivity).
           pose proof (@pow_pos (top - e) ltac:(lia)) as PE. set (H := 2 ^ (top - e)) in *.
           destruct (Z.eq_dec q (2 ^ (mb + 1) - 1)) as [QT|QT].
           ++ assert (QO : Z.odd q = true).
              { rewrite QT, PM. apply Z.odd_spec. exists (2 ^ mb - 1). lia. }
              assert (U : goes_up (2 ^ k) r q = (H <=? r)).
              { unfold goes_up. rewrite QO, andb_true_r, PT. destruct (Z.ltb_spec (2 * H) (2 * r)), (Z.eqb_spec (2 * H) (2 * r)), (Z.leb_spec H r); try reflexivity; lia. }
              unfold q'. rewrite U. rewrite E, QT, PT, PM, PM2. destruct (Z.leb_spec H r); split; intros; nia.
           ++ split; intros X; exfalso.
              ** destruct q'_cases as [Y|Y]; [lia|]. rewrite Y in X. lia.
              ** rewrite E, PT, PM2 in X. rewrite PM in *. nia.
      * split; [intros _|lia].
        destruct (Z.le_gt_cases top e) as [F|F].
        -- rewrite Z.min_r, Z.sub_diag, Z.pow_0_r by lia.
           assert (P1 : 2 ^ (mb + 2) <= 2 ^ l * 2 ^ (e - top)) by (rewrite <- pow_split by lia; apply pow_le; lia).
           pose proof (@pow_pos (e - top) ltac:(lia)). nia.
        -- rewrite Z.min_l, Z.sub_diag, Z.pow_0_r by lia.
           assert (P1 : 2 ^ (mb + 2) * 2 ^ (top - e) <= 2 ^ l) by (rewrite <- pow_split by lia; apply pow_le; lia).
           pose proof (@pow_pos (top - e) ltac:(lia)). nia.
Qed.
End Rounding.

Lemma q'_none mb eb p e : 1 <= mb -> mb + 2 < 2 ^ (eb - 1) ->
  let k := Z.max 0 (Z.max (Z.log2 (Zpos p) - mb) (2 - 2 ^ (eb - 1) - mb - e)) in
  Zpos p / 2 ^ k = 0 -> e + k < 2 ^ (eb - 1).
Proof.
  intros Hm He k H. assert (PK : 0 < 2 ^ k) by (apply pow_pos; lia). apply Z.div_small_iff in H; [|lia].
  destruct (Z.log2_spec (Zpos p) ltac:(lia)) as [L _]. pose proof (Z.log2_nonneg (Zpos p)).
  destruct (Z.le_gt_cases k (Z.log2 (Zpos p))) as [C|C]; [assert (2 ^ k <= 2 ^ Z.log2 (Zpos p)) by (apply pow_le; lia); lia|].
  unfold k in *. lia.
Qed.
Lemma rounded_narrow mb eb x : 1 <= mb -> mb + 2 < 2 ^ (eb - 1) -> rounded mb eb x (narrow mb eb x).
Proof.
  intros Hm He. destruct x as [| | |s p e]; try reflexivity. cbn [rounded].
  pose proof (@overflow mb eb Hm He p e s) as O. pose proof (@result_nearest mb eb Hm He p e s) as R.
  pose proof (@q'_none mb eb p e Hm He) as N. pose proof (@q'_bound mb eb Hm He p e) as [_ QB]. unfold result in R. unfold narrow. cbv zeta in N |- *.
  unfold goes_up in *.
  set (k := Z.max 0 (Z.max (Z.log2 (Zpos p) - mb) (2 - 2 ^ (eb - 1) - mb - e))) in *.
  set (q := Zpos p / 2 ^ k) in *. set (r := Zpos p mod 2 ^ k) in *.
  assert (Q0 : 0 <= q) by (apply Z.div_pos; [lia|apply pow_pos; lia]).
  set (up := (_ || _)%bool) in *. destruct (if up then q + 1 else q) as [|n|n] eqn:E; [| |lia].
  - assert (q = 0) by (destruct up; lia). specialize (N H). change (Z.log2 0) with 0 in *. right.
    split; [rewrite <- O; lia|]. split; [reflexivity|]. apply R. lia.
  - destruct (Z.leb_spec (2 ^ (eb - 1)) (Z.log2 (Zpos n) + e + k)) as [C|C].
    + left. split; [now apply O|reflexivity].
    + right. split; [rewrite <- O; lia|]. split; [reflexivity|]. now apply R.
Qed.
Lemma in_format_narrow mb eb x : 1 <= mb -> mb + 2 < 2 ^ (eb - 1) -> in_format mb eb (narrow mb eb x).
Proof.
  intros Hm He. pose proof (@rounded_narrow mb eb x Hm He) as R. destruct x as [| | |s p e]; try exact Logic.I.
  cbn [rounded] in R. destruct R as [[_ ->]|(_ & _ & F & _)]; [exact Logic.I|exact F].
Qed.

(** Integers as doubles. *)
Lemma round_pos_rounded s p : ~ too_large 52 11 (DFin s p 0) ->
  rounded 52 11 (DFin s p 0) (round_pos s p) /\ in_format 52 11 (round_pos s p) /\
  match round_pos s p with
  | DFin s m e => if Zpos m * 2 ^ e <? 2 ^ 1024 then Some (DFin s m e) else None
  | y => Some y
  end = Some (round_pos s p).
Proof.
  intros T. assert (N : narrow 52 11 (DFin s p 0) = round_pos s p).
  { unfold narrow, round_pos. cbv zeta. replace (Z.max 0 (Z.max (Z.log2 (Zpos p) - 52) (2 - 2 ^ (11 - 1) - 52 - 0))) with (Z.max 0 (Z.log2 (Zpos p) + 1 - 53))
      by (change (2 ^ (11 - 1)) with 1024; lia).
    pose proof (@overflow 52 11 ltac:(lia) ltac:(cbn; lia) p 0 s) as O. unfold goes_up in O.
    replace (Z.max 0 (Z.max (Z.log2 (Zpos p) - 52) (2 - 2 ^ (11 - 1) - 52 - 0))) with (Z.max 0 (Z.log2 (Zpos p) + 1 - 53)) in O
      by (change (2 ^ (11 - 1)) with 1024; lia).
    set (k := Z.max 0 (Z.log2 (Zpos p) + 1 - 53)) in *. set (q := Zpos p / 2 ^ k) in *. set (r := Zpos p mod 2 ^ k) in *.
    set (up := (_ || _)%bool) in *. destruct (if up then q + 1 else q) as [|n|n]; [reflexivity| |reflexivity].
    destruct (Z.leb_spec (2 ^ (11 - 1)) (Z.log2 (Zpos n) + 0 + k)) as [C|C]; [exfalso; apply T, O, C|]. f_equal. lia. }
  pose proof (@rounded_narrow 52 11 (DFin s p 0) ltac:(lia) ltac:(cbn; lia)) as R.
  pose proof (@in_format_narrow 52 11 (DFin s p 0) ltac:(lia) ltac:(cbn; lia)) as F. rewrite N in R, F.
  split; [exact R|]. split; [exact F|]. destruct (round_pos s p) as [| | |s' m e]; try reflexivity.
  destruct F as (_ & _ & _ & L). change (2 ^ (11 - 1)) with 1024 in L.
  destruct (Z.log2_spec (Zpos m) ltac:(lia)) as [_ LU]. pose proof (Z.log2_nonneg (Zpos m)).
  destruct (Z.ltb_spec (Zpos m * 2 ^ e) (2 ^ 1024)) as [C|C]; [reflexivity|exfalso].
  destruct (Z.le_gt_cases 0 e) as [E|E].
  - assert (2 ^ Z.succ (Z.log2 (Zpos m)) * 2 ^ e <= 2 ^ 1024) by (rewrite <- pow_split by lia; apply pow_le; lia).
    pose proof (@pow_pos e E). nia.
  - rewrite (@Z.pow_neg_r 2 e E), Z.mul_0_r in C. revert C. apply Z.lt_nge. now apply pow_pos.
Qed.
Lemma round_pos_large s p : too_large 52 11 (DFin s p 0) ->
  match round_pos s p with
  | DFin s m e => if Zpos m * 2 ^ e <? 2 ^ 1024 then Some (DFin s m e) else None
  | y => Some y
  end = None.
Proof.
  intros T. apply (@overflow 52 11 ltac:(lia) ltac:(cbn; lia) p 0 s) in T. unfold goes_up in T. unfold round_pos. cbv zeta.
  replace (Z.max 0 (Z.max (Z.log2 (Zpos p) - 52) (2 - 2 ^ (11 - 1) - 52 - 0))) with (Z.max 0 (Z.log2 (Zpos p) + 1 - 53)) in T
    by (change (2 ^ (11 - 1)) with 1024; lia).
  pose proof (@q'_none 52 11 p 0 ltac:(lia) ltac:(cbn; lia)) as N. cbv zeta in N.
  replace (Z.max 0 (Z.max (Z.log2 (Zpos p) - 52) (2 - 2 ^ (11 - 1) - 52 - 0))) with (Z.max 0 (Z.log2 (Zpos p) + 1 - 53)) in N
    by (change (2 ^ (11 - 1)) with 1024; lia).
  change (2 ^ (11 - 1)) with 1024 in *.
  set (k := Z.max 0 (Z.log2 (Zpos p) + 1 - 53)) in *. set (q := Zpos p / 2 ^ k) in *. set (r := Zpos p mod 2 ^ k) in *.
  assert (Q0 : 0 <= q) by (apply Z.div_pos; [lia|apply pow_pos; lia]).
  set (up := (_ || _)%bool) in *. destruct (if up then q + 1 else q) as [|n|n] eqn:E; [|clear N|destruct up; lia].
  - exfalso. assert (q = 0) by (destruct up; lia). specialize (N H). change (Z.log2 0) with 0 in T. lia.
  - destruct (pstrip_ok n) as [P S]. destruct (Z.log2_spec (Zpos n) ltac:(lia)) as [L _]. pose proof (Z.log2_nonneg (Zpos n)).
    assert (2 ^ 1024 <= 2 ^ Z.log2 (Zpos n) * 2 ^ k) by (rewrite <- pow_split by lia; apply pow_le; lia).
    rewrite pow_split by lia. rewrite Z.mul_assoc, <- P. pose proof (@pow_pos k ltac:(lia)).
    destruct (Z.ltb_spec (Zpos n * 2 ^ k) (2 ^ 1024)); [nia|reflexivity].
Qed.
