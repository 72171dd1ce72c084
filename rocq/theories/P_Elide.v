(** Proofs about the comparison with the fill value. *)
From Coq Require Import ZArith Lia.
From Coq Require Import ZifyBool ZifyNat ZifyN.
From Verif Require Import M_Base M_Bytes M_Format M_Double M_Metadata S_Array S_Bytes S_Format S_Number S_Elide P_Base P_Bytes P_Format P_Number.
From Verif Require S_Document P_Document.
Import List ListNotations.

Section Bits.
  Variables mb eb : Z.
  Hypothesis Hmb : (0 < mb)%Z.
  Hypothesis Heb : (1 < eb)%Z.
  Let F := (2 ^ mb)%Z.
  Let G := (2 ^ eb)%Z.
  Let least := (2 - 2 ^ (eb - 1) - mb)%Z.

  Definition sig (ex f : Z) : Z := if (ex =? 0)%Z then f else (F + f)%Z.
  Definition expo (ex : Z) : Z := if (ex =? 0)%Z then 0%Z else (ex - 1)%Z.
  Lemma F_pos : (2 <= F)%Z.
  Proof. unfold F. replace mb with (Z.succ (mb - 1)) by lia. rewrite Z.pow_succ_r by lia. pose proof (Z.pow_pos_nonneg 2 (mb - 1)). lia. Qed.
  Lemma G_pos : (4 <= G)%Z.
  Proof. unfold G. replace eb with (2 + (eb - 2))%Z by lia. rewrite Z.pow_add_r by lia. pose proof (Z.pow_pos_nonneg 2 (eb - 2)). lia. Qed.

  (** A pattern by its parts. *)
  Inductive pattern (s : bool) (ex f : Z) : dbl -> Prop :=
  | PatNan : ex = (G - 1)%Z -> f <> 0%Z -> pattern s ex f DNan
  | PatInf : ex = (G - 1)%Z -> f = 0%Z -> pattern s ex f (DInf s)
  | PatZero : ex = 0%Z -> f = 0%Z -> pattern s ex f (DZero s)
  | PatFin m t : (ex < G - 1)%Z -> (0 <= t)%Z -> (0 < sig ex f)%Z -> sig ex f = (Zpos m * 2 ^ t)%Z ->
      pattern s ex f (DFin s m (least + expo ex + t)).

  Lemma parts c : (unsigned_value c < 2 * (F * G))%Z -> exists (s : bool) ex f,
    unsigned_value c = (((if s then 1 else 0) * G + ex) * F + f)%Z /\ (0 <= ex < G)%Z /\ (0 <= f < F)%Z /\
    pattern s ex f (real_value mb eb c).
  Proof.
    intros B. pose proof F_pos as PF. pose proof G_pos as PG.
    assert (N0 : (0 <= unsigned_value c)%Z) by (unfold unsigned_value; lia).
    unfold real_value. assert (FG : (2 ^ (mb + eb) = F * G)%Z) by (unfold F, G; rewrite Z.pow_add_r by lia; reflexivity).
    rewrite FG. fold F G least. set (n := unsigned_value c) in *. clearbody n.
    pose proof (Z.div_mod n F ltac:(lia)) as D1. pose proof (Z.mod_pos_bound n F ltac:(lia)) as B1.
    pose proof (Z.div_mod (n / F) G ltac:(lia)) as D2. pose proof (Z.mod_pos_bound (n / F) G ltac:(lia)) as B2.
    assert (D3 : (n / (F * G) = n / F / G)%Z) by (rewrite Z.div_div by lia; reflexivity). rewrite D3.
    set (ex := ((n / F) mod G)%Z) in *. set (f := (n mod F)%Z) in *. set (q := (n / F / G)%Z) in *. set (r := (n / F)%Z) in *.
    assert (Q : q = 0%Z \/ q = 1%Z).
    { assert (0 <= q)%Z by (unfold q, r; apply Z.div_pos; [apply Z.div_pos|]; lia). nia. }
    clearbody ex f q r. clear D3. exists (0 <? q)%Z, ex, f.
    split; [destruct Q as [-> | ->]; cbn [Z.ltb Z.compare]; nia|]. split; [lia|]. split; [lia|].
    destruct (Z.eqb_spec ex (G - 1)) as [E1|E1].
    { destruct (Z.eqb_spec f 0); [now apply PatInf|now apply PatNan]. }
    destruct (Z.eqb_spec ex 0) as [E0|E0].
    - destruct f as [|p|p] eqn:Ef; [now apply PatZero| |lia].
      destruct (P_Document.odd_twos p) as [O T]. replace (least + S_Document.twos p)%Z with (least + expo ex + S_Document.twos p)%Z by (unfold expo; subst ex; cbn; lia).
      apply PatFin; [lia|exact T| |]; unfold sig; subst ex; cbn [Z.eqb]; [lia|exact O].
    - destruct (F + f)%Z as [|p|p] eqn:Ef; [lia| |lia].
      destruct (P_Document.odd_twos p) as [O T]. replace (least + ex - 1 + S_Document.twos p)%Z with (least + expo ex + S_Document.twos p)%Z by (unfold expo; destruct (Z.eqb_spec ex 0); lia).
      apply PatFin; [lia|exact T| |]; unfold sig; destruct (Z.eqb_spec ex 0); lia.
  Qed.

  (** The number determines its significand and exponent. *)
  Lemma sig_unique ex1 f1 ex2 f2 m t1 t2 : (0 <= ex1)%Z -> (0 <= ex2)%Z -> (0 <= f1 < F)%Z -> (0 <= f2 < F)%Z -> (0 <= t1)%Z -> (t1 <= t2)%Z ->
    sig ex1 f1 = (m * 2 ^ t1)%Z -> sig ex2 f2 = (m * 2 ^ t2)%Z -> (0 < m)%Z -> (expo ex1 + t1 = expo ex2 + t2)%Z -> ex1 = ex2 /\ f1 = f2.
  Proof.
    intros X1 X2 B1 B2 T1 T2 S1 S2 M E. pose proof F_pos as PF.
    assert (P : (2 ^ t2 = 2 ^ t1 * 2 ^ (t2 - t1))%Z) by (rewrite <- Z.pow_add_r by lia; f_equal; lia).
    assert (S : sig ex2 f2 = (sig ex1 f1 * 2 ^ (t2 - t1))%Z) by (rewrite S2, S1, P; ring).
    clear S1 S2 P. unfold sig, expo in *. destruct (Z.eq_dec t1 t2) as [->|T].
    - rewrite Z.sub_diag, Z.pow_0_r, Z.mul_1_r in S. destruct (Z.eqb_spec ex1 0), (Z.eqb_spec ex2 0); lia.
    - exfalso. assert (P : (2 <= 2 ^ (t2 - t1))%Z).
      { replace (t2 - t1)%Z with (Z.succ (t2 - t1 - 1)) by lia. rewrite Z.pow_succ_r by lia. pose proof (Z.pow_pos_nonneg 2 (t2 - t1 - 1)). lia. }
      set (k := (2 ^ (t2 - t1))%Z) in *. clearbody k. destruct (Z.eqb_spec ex1 0), (Z.eqb_spec ex2 0); nia.
  Qed.

  Lemma compare a b : (unsigned_value a < 2 * (F * G))%Z -> (unsigned_value b < 2 * (F * G))%Z ->
    (equal_number (real_value mb eb a) (real_value mb eb b) <->
     (unsigned_value a mod (F * G) <= (G - 1) * F)%Z /\ (unsigned_value b mod (F * G) <= (G - 1) * F)%Z /\
     (unsigned_value a = unsigned_value b \/ unsigned_value a mod (F * G) = 0 /\ unsigned_value b mod (F * G) = 0)%Z).
  Proof.
    intros Ba Bb. destruct (@parts a Ba) as (s1 & e1 & f1 & V1 & X1 & Y1 & P1). destruct (@parts b Bb) as (s2 & e2 & f2 & V2 & X2 & Y2 & P2).
    pose proof F_pos as PF. pose proof G_pos as PG.
    assert (M : forall (s : bool) e f, (0 <= e < G)%Z -> (0 <= f < F)%Z -> ((((if s then 1 else 0) * G + e) * F + f) mod (F * G) = e * F + f)%Z).
    { intros s e f He Hf. symmetry. apply Z.mod_unique with (if s then 1 else 0)%Z; [left; nia|destruct s; nia]. }
    assert (SV : unsigned_value a = unsigned_value b -> real_value mb eb a = real_value mb eb b) by (intros E; unfold real_value; now rewrite E).
    rewrite V1, V2 in SV. rewrite V1, V2, !M by assumption. clear M V1 V2 Ba Bb.
    inversion P1 as [A1 A2 R1|A1 A2 R1|A1 A2 R1|m1 t1 A1 A2 A3 A4 R1]; inversion P2 as [C1 C2 R2|C1 C2 R2|C1 C2 R2|m2 t2 C1 C2 C3 C4 R2];
      cbn [equal_number]; try (split; [now intros []|intros (Q1 & Q2 & _); nia]).
    - split; [injection 1 as ->; subst; repeat split; try lia; now left|]. intros (_ & _ & [E|E]); [|nia]. f_equal. destruct s1, s2; try reflexivity; nia.
    - split; [discriminate|]. intros (_ & _ & [E|E]); destruct s1, s2; nia.
    - split; [discriminate|]. intros (_ & _ & [E|E]); destruct s1, s2; nia.
    - split; [discriminate|]. intros (_ & _ & [E|E]); destruct s1, s2; nia.
    - split; [intros _; rewrite A1, A2, C1, C2; repeat split; try nia; right; split; lia|intros _; exact Logic.I].
    - split; [discriminate|]. intros (_ & _ & [E|E]); exfalso.
      + assert (e1 = e2 /\ f1 = f2) by (destruct s1, s2; nia). unfold sig in *. destruct (Z.eqb_spec e2 0); lia.
      + unfold sig in *. destruct (Z.eqb_spec e2 0); nia.
    - split; [discriminate|]. intros (_ & _ & [E|E]); destruct s1, s2; nia.
    - split; [discriminate|]. intros (_ & _ & [E|E]); exfalso.
      + assert (e1 = e2 /\ f1 = f2) by (destruct s1, s2; nia). unfold sig in *. destruct (Z.eqb_spec e1 0); lia.
      + unfold sig in *. destruct (Z.eqb_spec e1 0); nia.
    - split.
      + injection 1 as -> -> ET. assert (U : e1 = e2 /\ f1 = f2).
        { destruct (Z.le_ge_cases t1 t2) as [T|T].
          - apply (@sig_unique e1 f1 e2 f2 (Zpos m2) t1 t2); try lia; assumption.
          - destruct (@sig_unique e2 f2 e1 f1 (Zpos m2) t2 t1) as [-> ->]; try lia; try assumption. }
        destruct U as [-> ->]. split; [nia|]. split; [nia|]. now left.
      + intros (_ & _ & [E|[E _]]).
        * rewrite R1, R2. now apply SV.
        * exfalso. unfold sig in *. destruct (Z.eqb_spec e1 0); nia.
  Qed.
End Bits.

(** operator== compares the numbers. *)
Lemma float_eq t mb eb a b : real_type t = Some (mb, eb) -> lenN a = dtype_size t -> lenN b = dtype_size t -> Forall is_byte a -> Forall is_byte b ->
  (elem_eq (ElemType (dtype_size t) true) a b = true <-> equal_number (real_value mb eb a) (real_value mb eb b)).
Proof.
  intros T La Lb Ba Bb. assert (P : (0 < mb)%Z /\ (1 < eb)%Z) by (destruct t; try discriminate T; injection T as <- <-; lia).
  assert (W : Z.of_N (256 ^ dtype_size t) = (2 * (2 ^ mb * 2 ^ eb))%Z) by (destruct t; try discriminate T; injection T as <- <-; reflexivity).
  assert (H : forall c, lenN c = dtype_size t -> Forall is_byte c -> (unsigned_value c < 2 * (2 ^ mb * 2 ^ eb))%Z).
  { intros c L B. rewrite <- W. unfold unsigned_value. pose proof (of_le_bound B) as K. rewrite of_le_value, L in K. lia. }
  rewrite (@compare mb eb (proj1 P) (proj2 P) a b (H a La Ba) (H b Lb Bb)).
  unfold elem_eq. cbn [t_float t_width]. rewrite (of_le_value a), (of_le_value b).
  assert (M : Z.of_N (2 ^ (8 * dtype_size t - 1)) = (2 ^ mb * 2 ^ eb)%Z) by (destruct t; try discriminate T; injection T as <- <-; reflexivity).
  assert (I : Z.of_N (inf_pattern (dtype_size t)) = ((2 ^ eb - 1) * 2 ^ mb)%Z) by (destruct t; try discriminate T; injection T as <- <-; reflexivity).
  rewrite <- M, <- I. unfold unsigned_value. rewrite <- !N2Z.inj_mod.
  set (q := 2 ^ (8 * dtype_size t - 1)). set (i := inf_pattern _).
  generalize (value_le a mod q), (value_le b mod q), (value_le a), (value_le b). clear. intros x y u v.
  rewrite !andb_true_iff, orb_true_iff, andb_true_iff, !negb_true_iff, !N.ltb_ge, !N.eqb_eq. lia.
Qed.

(** Which chunks are not stored. *)
Lemma elided_iff t (zarr : bool) cd fill defshape bshape data n : n = prod (if zarr then defshape else bshape) -> n < W64 ->
  lenN data = n ->
  (data_to_buffer zarr t cd fill defshape bshape data false 0 = Ok None <-> Forall (fun v => elem_eq t v fill = true) data).
Proof.
  intros Hn Hw Hl. unfold data_to_buffer. cbn [andb negb].
  replace (if zarr then prodw defshape else prodw bshape) with n by (destruct zarr; subst n; now rewrite prodw_small).
  destruct (N.ltb_spec (lenN data) n); [lia|]. rewrite firstn_exact by assumption. rewrite <- all_equal_spec.
  destruct (forallb _ data) eqn:E; [split; reflexivity|]. split; [|discriminate]. intros Hx. exfalso. destruct zarr.
  - destruct (compress _ _ _); cbn in Hx; discriminate.
  - destruct (data_to_n5_format _ _ _ _ _ _); cbn in Hx; discriminate.
Qed.
