(** Proofs about numbers as elements of arrays. *)
From Coq Require Import ZArith.
From Verif Require Import M_Base M_Bytes M_Format M_Mode M_Dataset M_Double M_Metadata M_Python M_Number
  S_Array S_Grid S_Bytes S_Dataset S_Access S_Python S_Number P_Base P_Bytes P_Metadata P_Python3 P_Round.
From Verif Require S_Document P_Document.
Import List ListNotations.
Local Open Scope list_scope.
Local Open Scope N_scope.

(** * Integers *)
Lemma pow_256 n : (256 ^ N.of_nat n) = Z.to_N (2 ^ (8 * Z.of_nat n)).
Proof.
  rewrite Z.pow_mul_r by lia. change (2 ^ 8)%Z with (Z.of_N 256). rewrite <- nat_N_Z, <- N2Z.inj_pow, N2Z.id. reflexivity.
Qed.
Lemma value_bytes n z : (0 <= z < 2 ^ (8 * Z.of_nat n))%Z -> unsigned_value (le_bytes n (Z.to_N z)) = z.
Proof.
  intros H. unfold unsigned_value. rewrite <- of_le_value, of_le_le_small by (rewrite pow_256; lia). lia.
Qed.
Lemma int_cell_length t z : length (int_cell t z) = N.to_nat (dtype_size t).
Proof. apply le_bytes_length. Qed.
Lemma unsigned_int t z : unsigned_value (int_cell t z) = (z mod 2 ^ (8 * Z.of_N (dtype_size t)))%Z.
Proof.
  unfold int_cell. rewrite value_bytes; [reflexivity|]. rewrite N_nat_Z. apply Z.mod_pos_bound. apply Z.pow_pos_nonneg; lia.
Qed.
Lemma integer_cell signed t z : 0 < dtype_size t -> in_type signed (dtype_size t) z -> integer_value signed (int_cell t z) = z.
Proof.
  intros W H. unfold integer_value. rewrite unsigned_int, int_cell_length, N_nat_Z.
  set (n := (8 * Z.of_N (dtype_size t))%Z) in *.
  assert (P : (2 ^ n = 2 * 2 ^ (n - 1))%Z) by (rewrite <- Z.pow_succ_r by (unfold n; lia); f_equal; lia).
  assert (Q : (0 < 2 ^ (n - 1))%Z) by (apply Z.pow_pos_nonneg; unfold n; lia).
  unfold in_type in H. fold n in H. destruct signed; cbn [andb].
  - destruct (Z.leb_spec 0 z) as [L|L].
    + rewrite Z.mod_small by lia. destruct (Z.leb_spec (2 ^ (n - 1)) z); lia.
    + replace (z mod 2 ^ n)%Z with (z + 2 ^ n)%Z; [destruct (Z.leb_spec (2 ^ (n - 1)) (z + 2 ^ n)); lia|].
      replace z with (z + 2 ^ n + (-1) * 2 ^ n)%Z at 2 by lia. rewrite Z.mod_add by lia. symmetry. apply Z.mod_small. lia.
  - rewrite Z.mod_small by lia. reflexivity.
Qed.
Lemma trunc_whole v x : v = PFloat x \/ v = PNpFloat x -> whole v = dbl_trunc x.
Proof.
  intros H. assert (E : whole v = whole (PFloat x)) by (destruct H; now subst v). rewrite E. destruct x as [| | |s m e]; try reflexivity.
  cbn [whole dbl_trunc]. f_equal. destruct (Z.ltb_spec e 0); destruct (Z.leb_spec 0 e); try lia; destruct s; lia.
Qed.
Lemma range_of t signed : integer_type t = Some signed ->
  exists lo hi, dtype_range t = Some (lo, hi) /\ (lo <? 0)%Z = signed /\ 0 < dtype_size t /\
    (forall z, in_type signed (dtype_size t) z <-> (lo <= z <= hi)%Z) /\
    (signed = true -> - 2 ^ 63 <= lo /\ hi <= 2 ^ 63 - 1)%Z /\ (signed = false -> 0 <= lo /\ hi <= 2 ^ 64 - 1)%Z.
Proof.
  assert (B : forall a b c d : Z, a = c -> (b = d + 1)%Z -> forall z, (a <= z < b)%Z <-> (c <= z <= d)%Z) by lia.
  intros H. destruct t; try discriminate; injection H as <-; do 2 eexists; (split; [reflexivity|]); (split; [reflexivity|]);
    (split; [reflexivity|]); (split; [apply B; reflexivity|]); split; intros X; try discriminate X; split; now apply Zle_bool_imp_le.
Qed.
Lemma cell_integer t signed v : integer_type t = Some signed -> holds t v ->
  exists z, whole v = Some z /\ in_type signed (dtype_size t) z /\ scalar_cell t v = PyOk (int_cell t z).
Proof.
  intros T H. unfold holds in H. rewrite T in H. destruct H as (z & Hz & Hr). exists z. split; [exact Hz|]. split; [exact Hr|].
  destruct (range_of T) as (lo & hi & ER & ES & W & HI & H1 & H2). unfold scalar_cell. rewrite ER, ES.
  apply HI in Hr.
  set (wide := if signed then _ else _).
  assert (HW : (fst wide <= z <= snd wide)%Z).
  { unfold wide. destruct signed; cbn [fst snd]; [specialize (H1 Logic.eq_refl)|specialize (H2 Logic.eq_refl)]; lia. }
  assert (HB : ((fst wide <=? z) && (z <=? snd wide))%Z = true) by (apply andb_true_intro; split; apply Zle_imp_le_bool; lia).
  assert (HT : ((lo <=? z) && (z <=? hi))%Z = true) by (apply andb_true_intro; split; apply Zle_imp_le_bool; lia).
  destruct v as [y|y|x|x|re im]; cbn [load_int].
  - injection Hz as ->. now rewrite HB.
  - injection Hz as ->. now rewrite HB.
  - cbn [load_double]. rewrite (@trunc_whole _ x) in Hz by auto. unfold dbl_to_int. rewrite Hz, HT. reflexivity.
  - rewrite (@trunc_whole _ x) in Hz by auto. now rewrite Hz, HB.
  - discriminate.
Qed.

(** * Floating point numbers *)
Lemma odd_xI m : Z.Odd (Zpos m) -> exists n, m = xI n \/ m = xH.
Proof. intros [k H]. destruct m as [m|m|]; [now exists m; left| |exists xH; now right]. exfalso. lia. Qed.
Lemma strip_odd m p k : Z.Odd (Zpos m) -> (0 <= k)%Z -> Zpos p = (Zpos m * 2 ^ k)%Z ->
  S_Document.odd_part p = m /\ S_Document.twos p = k.
Proof.
  intros O K E. pose proof (@pstrip_shift m (odd_xI O) k p K E) as S. rewrite P_Document.pstrip_spec in S. now injection S as -> ->.
Qed.
Lemma narrow_id mb eb x : (0 <= mb)%Z -> in_format mb eb x -> narrow mb eb x = x.
Proof.
  intros Hmb. destruct x as [| | |s m e]; try reflexivity. intros (O & M & E & L). unfold narrow.
  assert (LM : (Z.log2 (Zpos m) < mb + 1)%Z) by (apply Z.log2_lt_pow2; lia).
  set (least := (2 - 2 ^ (eb - 1) - mb)%Z) in *.
  replace (Z.max 0 (Z.max (Z.log2 (Zpos m) - mb) (least - e))) with 0%Z by lia.
  rewrite Z.pow_0_r, Z.div_1_r, Z.mod_1_r. cbn [Z.mul Z.ltb Z.eqb Z.compare orb andb].
  destruct (Z.leb_spec (2 ^ (eb - 1)) (Z.log2 (Zpos m) + e + 0)); [lia|].
  destruct (odd_xI O) as [n Hn]. rewrite (@pstrip_odd m) by (now exists n). cbn [fst snd]. f_equal. lia.
Qed.
Lemma bits_value mb eb x n : (0 < mb)%Z -> (1 < eb)%Z -> in_format mb eb x ->
  (mb + eb + 1 = 8 * Z.of_nat n)%Z ->
  real_value mb eb (le_bytes n (Z.to_N (float_bits mb eb x))) = x.
Proof.
  intros Hmb Heb Hf Hn.
  set (F := (2 ^ mb)%Z). set (G := (2 ^ eb)%Z).
  assert (PF : (2 <= F)%Z) by (unfold F; replace mb with (Z.succ (mb - 1)) by lia; rewrite Z.pow_succ_r by lia; pose proof (Z.pow_pos_nonneg 2 (mb - 1)); lia).
  assert (PG : (4 <= G)%Z).
  { unfold G. replace eb with (2 + (eb - 2))%Z by lia. rewrite Z.pow_add_r by lia. pose proof (Z.pow_pos_nonneg 2 (eb - 2)). lia. }
  assert (GB : G = (2 * 2 ^ (eb - 1))%Z) by (unfold G; rewrite <- Z.pow_succ_r by lia; f_equal; lia).
  assert (FG : (2 ^ (mb + eb) = F * G)%Z) by (unfold F, G; rewrite Z.pow_add_r by lia; reflexivity).
  (* an exponent and a fraction *)
  assert (V : forall (s : bool) ex f, (0 <= ex < G)%Z -> (0 <= f < F)%Z ->
    let c := le_bytes n (Z.to_N ((if s then F * G else 0) + ex * F + f)) in
    (0 <? unsigned_value c / (F * G))%Z = s /\ ((unsigned_value c / F) mod G)%Z = ex /\ (unsigned_value c mod F)%Z = f).
  { intros s ex f Hx Hf0 c.
    assert (B : (ex * F + f < F * G)%Z) by nia.
    assert (U : unsigned_value c = ((if s then F * G else 0) + ex * F + f)%Z).
    { unfold c. apply value_bytes. rewrite <- Hn. replace (mb + eb + 1)%Z with (Z.succ (mb + eb)) by lia. rewrite Z.pow_succ_r by lia. rewrite FG. destruct s; nia. }
    rewrite U. split; [|split].
    - destruct s.
      + replace (F * G + ex * F + f)%Z with (ex * F + f + 1 * (F * G))%Z by lia. rewrite Z.div_add by nia. rewrite Z.div_small by nia. reflexivity.
      + rewrite Z.div_small by nia. reflexivity.
    - destruct s.
      + replace (F * G + ex * F + f)%Z with (f + (ex + G) * F)%Z by lia. rewrite Z.div_add by lia. rewrite Z.div_small by lia.
        rewrite Z.add_0_l. replace (ex + G)%Z with (ex + 1 * G)%Z by lia. rewrite Z.mod_add by lia. apply Z.mod_small. lia.
      + replace (0 + ex * F + f)%Z with (f + ex * F)%Z by lia. rewrite Z.div_add by lia. rewrite Z.div_small by lia. rewrite Z.add_0_l. apply Z.mod_small. lia.
    - destruct s.
      + replace (F * G + ex * F + f)%Z with (f + (ex + G) * F)%Z by lia. rewrite Z.mod_add by lia. apply Z.mod_small. lia.
      + replace (0 + ex * F + f)%Z with (f + ex * F)%Z by lia. rewrite Z.mod_add by lia. apply Z.mod_small. lia. }
  unfold real_value. rewrite FG. fold F G.
  assert (top : forall s : bool, (if s then (2 ^ (mb + eb))%Z else 0%Z) = (if s then F * G else 0)%Z) by (intros []; [exact FG|reflexivity]).
  destruct x as [|s|s|s m e]; unfold float_bits; rewrite ?top; fold F G.
  - assert (P1 : (0 <= 2 ^ (mb - 1) < F)%Z).
    { split; [apply Z.pow_nonneg; lia|]. unfold F. apply Z.pow_lt_mono_r; lia. }
    destruct (V false (G - 1)%Z (2 ^ (mb - 1))%Z ltac:(lia) P1) as (V1 & V2 & V3). rewrite Z.add_0_l in V1, V2, V3. rewrite V1, V2, V3, Z.eqb_refl.
    assert (P2 : (0 < 2 ^ (mb - 1))%Z) by (apply Z.pow_pos_nonneg; lia). destruct (Z.eqb_spec (2 ^ (mb - 1)) 0); [lia|reflexivity].
  - destruct (V s (G - 1)%Z 0%Z ltac:(lia) ltac:(lia)) as (V1 & V2 & V3). rewrite Z.add_0_r in V1, V2, V3. rewrite V1, V2, V3, !Z.eqb_refl. reflexivity.
  - destruct (V s 0%Z 0%Z ltac:(lia) ltac:(lia)) as (V1 & V2 & V3). rewrite Z.mul_0_l, !Z.add_0_r in V1, V2, V3. rewrite V1, V2, V3.
    destruct (Z.eqb_spec 0 (G - 1)); [lia|]. reflexivity.
  - destruct Hf as (O & M & E & L).
    assert (LM : (Z.log2 (Zpos m) < mb + 1)%Z) by (apply Z.log2_lt_pow2; lia).
    pose proof (Z.log2_nonneg (Zpos m)) as L0. destruct (Z.log2_spec (Zpos m) ltac:(lia)) as [LL LU].
    set (l := Z.log2 (Zpos m)) in *. set (least := (2 - 2 ^ (eb - 1) - mb)%Z) in *.
    assert (HLe : least = (2 - 2 ^ (eb - 1) - mb)%Z) by reflexivity. clearbody least l.
    destruct (Z.leb_spec (least + mb) (l + e)) as [C|C].
    + assert (Q : (F <= Zpos m * 2 ^ (mb - l) < 2 * F)%Z).
      { assert (QP : (0 < 2 ^ (mb - l))%Z) by (apply Z.pow_pos_nonneg; lia).
        replace F with (2 ^ l * 2 ^ (mb - l))%Z by (unfold F; rewrite <- Z.pow_add_r by lia; f_equal; lia).
        replace (2 * (2 ^ l * 2 ^ (mb - l)))%Z with (2 ^ Z.succ l * 2 ^ (mb - l))%Z by (rewrite Z.pow_succ_r by lia; lia). nia. }
      destruct (V s (l + e - least - mb + 1)%Z (Zpos m * 2 ^ (mb - l) - F)%Z ltac:(lia) ltac:(lia)) as (V1 & V2 & V3).
      rewrite V1, V2, V3.
      destruct (Z.eqb_spec (l + e - least - mb + 1) (G - 1)) as [X|_]; [exfalso; clear - X L HLe GB; lia|].
      destruct (Z.eqb_spec (l + e - least - mb + 1) 0) as [X|_]; [lia|].
      replace (F + (Zpos m * 2 ^ (mb - l) - F))%Z with (Zpos m * 2 ^ (mb - l))%Z by lia.
      destruct (Zpos m * 2 ^ (mb - l))%Z as [|p|p] eqn:EP; [lia| |lia].
      destruct (@strip_odd m p (mb - l)%Z O ltac:(lia) (Logic.eq_sym EP)) as [-> ->]. f_equal. lia.
    + assert (Q : (0 < Zpos m * 2 ^ (e - least) < F)%Z).
      { assert (QP : (0 < 2 ^ (e - least))%Z) by (apply Z.pow_pos_nonneg; lia). split; [lia|].
        apply Z.lt_le_trans with (2 ^ Z.succ l * 2 ^ (e - least))%Z; [nia|]. rewrite <- Z.pow_add_r by lia. unfold F. apply Z.pow_le_mono_r; lia. }
      destruct (V s 0%Z (Zpos m * 2 ^ (e - least))%Z ltac:(lia) ltac:(lia)) as (V1 & V2 & V3). rewrite Z.mul_0_l, Z.add_0_r in V1, V2, V3.
      rewrite V1, V2, V3. destruct (Z.eqb_spec 0 (G - 1)); [lia|]. rewrite Z.eqb_refl.
      destruct (Zpos m * 2 ^ (e - least))%Z as [|p|p] eqn:EP; [lia| |lia].
      destruct (@strip_odd m p (e - least)%Z O ltac:(lia) (Logic.eq_sym EP)) as [-> ->]. f_equal. lia.
Qed.
Lemma load_real v x : is_real v x -> for_double v x -> exists d, load_double v = Some d /\ rounded 52 11 x d /\ in_format 52 11 d.
Proof.
  intros H F.
  assert (I : forall z, is_real (PInt z) x -> ~ too_large 52 11 x -> exists d, match dbl_of_Z z with
      | DFin s m e => if (Zpos m * 2 ^ e <? 2 ^ 1024)%Z then Some (DFin s m e) else None
      | y => Some y end = Some d /\ rounded 52 11 x d /\ in_format 52 11 d).
  { intros z Hz T. cbn [is_real] in Hz. destruct z as [|p|p]; subst x; cbn [dbl_of_Z].
    - exists (DZero false). split; [reflexivity|]. split; [reflexivity|exact Logic.I].
    - destruct (round_pos_rounded T) as (R & G & E). eauto.
    - destruct (round_pos_rounded T) as (R & G & E). eauto. }
  assert (D : in_format 52 11 x -> rounded 52 11 x x).
  { intros G. rewrite <- (@narrow_id 52 11 x ltac:(lia) G) at 2. apply rounded_narrow; [lia|reflexivity]. }
  destruct v as [z|z|y|y|re im]; cbn [load_double for_double] in *.
  - now apply I.
  - now apply I.
  - cbn [is_real] in H. subst. eauto.
  - cbn [is_real] in H. subst. eauto.
  - contradiction.
Qed.
Lemma load_large v z : v = PInt z \/ v = PIndex z -> (forall x, is_real v x -> too_large 52 11 x) -> load_double v = None.
Proof.
  intros V H. assert (T : forall x, is_real (PInt z) x -> too_large 52 11 x) by (destruct V as [-> | ->]; exact H).
  assert (E : load_double v = load_double (PInt z)) by (destruct V as [-> | ->]; reflexivity). rewrite E. cbn [load_double].
  specialize (T _ Logic.eq_refl). destruct z as [|p|p]; [contradiction| |]; cbn [dbl_of_Z]; now apply round_pos_large.
Qed.

(** * Assignments *)
Definition mantissa (single : bool) : Z := if single then 23 else 52.
Definition exponent (single : bool) : Z := if single then 8 else 11.
Lemma cell_value single x d : in_format 52 11 d -> rounded 52 11 x d ->
  stored_as (mantissa single) (exponent single) x (real_value (mantissa single) (exponent single) (float_cell single d)).
Proof.
  intros F R. exists d. split; [exact R|].
  assert (N : forall mb eb, (1 <= mb)%Z -> (mb + 2 < 2 ^ (eb - 1))%Z -> rounded mb eb d (narrow mb eb d)) by (intros; now apply rounded_narrow).
  destruct single; cbn [mantissa exponent float_cell].
  - rewrite bits_value; [now apply N|lia|lia|apply in_format_narrow; [lia|reflexivity]|reflexivity].
  - rewrite bits_value by (auto; lia). rewrite <- (@narrow_id 52 11 d ltac:(lia) F) at 2. now apply N.
Qed.
Lemma float_cell_length single x : length (float_cell single x) = if single then 4%nat else 8%nat.
Proof. destruct single; apply le_bytes_length. Qed.
Lemma float_cell_bytes single x : Forall is_byte (float_cell single x).
Proof. destruct single; apply le_bytes_all. Qed.
Lemma rounded_id x : in_format 52 11 x -> rounded 52 11 x x.
Proof. intros G. rewrite <- (@narrow_id 52 11 x ltac:(lia) G) at 2. apply rounded_narrow; [lia|reflexivity]. Qed.
Lemma load_parts v re im : is_complex v re im -> for_double v re -> in_format 52 11 im ->
  v = PComplex re im \/ (forall a b, v <> PComplex a b) /\ im = DZero false /\
    exists d, load_double v = Some d /\ rounded 52 11 re d /\ in_format 52 11 d.
Proof.
  intros H F F2. destruct v as [z|z|x|x|a b]; cbn [is_complex] in H; destruct H as [H ->];
    try (right; split; [discriminate|]; split; [reflexivity|]; now apply load_real). left. now subst.
Qed.
Lemma complex_number t v : integer_type t = None -> real_type t = None ->
  match complex_type t with
  | Some _ => exists re im, is_complex v re im /\ for_double v re /\ in_format 52 11 im
  | None => False
  end -> exists c, scalar_cell t v = PyOk c /\ is_number t v c /\ Forall is_byte c.
Proof.
  intros T R H. destruct (complex_type t) as [[mb eb]|] eqn:C; [|contradiction]. destruct H as (re & im & Hc & F1 & F2).
  assert (X : exists single dr, scalar_cell t v = PyOk (float_cell single dr ++ float_cell single im) /\ rounded 52 11 re dr /\ in_format 52 11 dr /\
      mb = mantissa single /\ eb = exponent single /\ dtype_size t = (if single then 8 else 16)).
  { assert (S : exists single : bool, t = if single then DT_complex64 else DT_complex128).
    { destruct t; try discriminate C; [now exists true|now exists false]. }
    destruct S as [single ->]. exists single.
    assert (D : mb = mantissa single /\ eb = exponent single /\ dtype_size (if single then DT_complex64 else DT_complex128) = (if single then 8 else 16))
      by (destruct single; injection C as <- <-; auto).
    destruct (load_parts Hc F1 F2) as [->|(N & -> & d & E & Rd & Fd)].
    - exists re. split; [destruct single; reflexivity|]. split; [now apply rounded_id|]. split; [exact F1|exact D].
    - exists d. split; [|auto]. destruct single; unfold scalar_cell; cbn [dtype_range]; rewrite E; (destruct v; try reflexivity; now destruct (N re0 im)). }
  destruct X as (single & dr & E & R1 & R2 & -> & -> & W). eexists. split; [exact E|]. split; [|apply Forall_app; split; apply float_cell_bytes].
  unfold is_number. rewrite T, R, C, W. unfold lenN. rewrite app_length, !float_cell_length.
  assert (HF : forall k, k = length (float_cell single dr) ->
     firstn k (float_cell single dr ++ float_cell single im) = float_cell single dr /\ skipn k (float_cell single dr ++ float_cell single im) = float_cell single im).
  { intros k ->. now rewrite firstn_app, Nat.sub_diag, firstn_all, app_nil_r, skipn_app, Nat.sub_diag, skipn_all. }
  cbv zeta. destruct (HF (Nat.div2 ((if single then 4 else 8) + (if single then 4 else 8)))%nat) as [-> ->];
    [rewrite float_cell_length; destruct single; reflexivity|].
  split; [destruct single; reflexivity|]. exists re, im. split; [exact Hc|]. split; apply cell_value; auto using rounded_id.
Qed.
Lemma cell_number t v : holds t v -> exists c, scalar_cell t v = PyOk c /\ is_number t v c /\ Forall is_byte c.
Proof.
  intros H. destruct (integer_type t) as [signed|] eqn:T.
  - destruct (cell_integer T H) as (z & Hz & Hr & E). exists (int_cell t z). split; [exact E|]. split; [|apply le_bytes_all].
    destruct (range_of T) as (_ & _ & _ & _ & W & _). split.
    + unfold lenN. rewrite int_cell_length. apply N2Nat.id.
    + rewrite T, Hz. now rewrite integer_cell.
  - unfold holds in H. rewrite T in H. destruct (real_type t) as [[mb eb]|] eqn:R; [|now apply complex_number]. destruct H as (x & Hx & Hf).
    destruct (load_real Hx Hf) as (d & E & Rd & Fd).
    assert (S : exists single : bool, t = (if single then DT_float32 else DT_float64) /\ mb = mantissa single /\ eb = exponent single).
    { destruct t; try discriminate R; injection R as <- <-; [now exists true|now exists false]. }
    destruct S as (single & -> & -> & ->). exists (float_cell single d).
    split; [destruct single; unfold scalar_cell; cbn [dtype_range]; now rewrite E|]. split; [|apply float_cell_bytes].
    unfold is_number. rewrite T, R. split; [unfold lenN; rewrite float_cell_length; destruct single; reflexivity|].
    exists x. split; [exact Hx|]. now apply cell_value.
Qed.
(** Integers that no double is near to are refused. *)
Lemma large_cell t v z : real_type t <> None \/ complex_type t <> None -> v = PInt z \/ v = PIndex z ->
  (forall x, is_real v x -> too_large 52 11 x) -> scalar_cell t v = PyRaise (CppError ERuntime).
Proof.
  intros T V H. pose proof (load_large V H) as E. unfold scalar_cell.
  destruct T as [T|T]; destruct t; try contradiction; cbn [dtype_range]; rewrite E; destruct V as [-> | ->]; reflexivity.
Qed.
Lemma to_sizes_def l : to_sizes l <> PyUB.
Proof.
  induction l as [|x l IH]; cbn [to_sizes]; [discriminate|]. destruct (to_size x); [|discriminate].
  destruct (to_sizes l); cbn [pbind]; [discriminate|discriminate|contradiction].
Qed.
Lemma set_number_cell t p ix v c st : scalar_cell t v = PyOk c -> py_set_number t p ix v st = py_setitem p ix (PyScalar c) st.
Proof.
  intros E. unfold py_set_number, py_setitem. destruct (index_to_roi ix _) as [[[b zn] sq]|e|]; [|reflexivity|reflexivity].
  destruct (existsb (Z.eqb 0) zn); [reflexivity|]. rewrite E. unfold py_write_scalar.
  pose proof (@to_sizes_def b) as B. pose proof (@to_sizes_def (map Some zn)) as N.
  destruct (to_sizes b) as [x|e|]; cbn [pbind]; [|destruct (to_sizes (map Some zn)); try reflexivity; contradiction|contradiction].
  destruct (to_sizes (map Some zn)) as [y|e|]; cbn [pbind]; [reflexivity|reflexivity|contradiction].
Qed.
Lemma set_number_fails t p ix v st : (forall c, scalar_cell t v <> PyOk c) ->
  py_set_number t p ix v st = (st, PyOk tt) \/ (exists e, py_set_number t p ix v st = (st, PyRaise e)) \/
  scalar_cell t v = PyUB /\ py_set_number t p ix v st = (st, PyUB) \/ index_to_roi ix (map Z.of_N (d_shape (pd_base p))) = PyUB.
Proof.
  intros E. unfold py_set_number. destruct (index_to_roi ix _) as [[[b zn] sq]|e|]; [|eauto|auto].
  destruct (existsb (Z.eqb 0) zn); [auto|]. right.
  pose proof (@to_sizes_def b) as B. pose proof (@to_sizes_def (map Some zn)) as N.
  destruct (to_sizes b) as [x|e|]; cbn [pbind]; [|eauto|contradiction].
  destruct (to_sizes (map Some zn)) as [y|e|]; cbn [pbind]; [|eauto|contradiction].
  destruct (scalar_cell t v) as [c|e|]; [now destruct (E c)|eauto|auto].
Qed.

Theorem number_history t p ops st : py_dataset_ok p -> can_write (d_mode (pd_base p)) = true ->
  t_width (d_type (pd_base p)) = dtype_size t -> Forall (num_op_ok t (pd_base p)) ops -> new_dataset p st ->
  exists ops' st', Forall2 (means t) ops ops' /\ run_num_ops t p ops st = (st', PyOk tt) /\
    forall ix ps fresh, np_select (d_shape (pd_base p)) ix = Some ps -> regular_index (d_shape (pd_base p)) ix ->
      small_request (d_chunks (pd_base p)) (np_count ps) -> prod (np_count ps) < W64 -> (forall n, lenN (fresh n) = n) ->
      exists v, py_getitem p fresh ix st' = PyOk v /\
        np_value (pd_base p) (py_applies (pd_base p) ops' (fun _ => d_fill (pd_base p))) ps v.
Proof.
  intros K W T F N.
  assert (X : exists ops', Forall2 (means t) ops ops' /\ Forall (py_op_ok (pd_base p)) ops' /\
    forall st, run_num_ops t p ops st = run_py_ops p ops' st).
  { clear N. induction F as [|o ops Ho F (ops' & H1 & H2 & H3)]; [exists []; auto|].
    destruct o as [ix v|o]; cbn [num_op_ok] in Ho.
    - destruct Ho as (Hv & ps & P1 & P2 & P3). destruct (cell_number Hv) as (c & E & Hc & Hb). exists (PySet ix (PyScalar c) :: ops').
      split; [constructor; [cbn [means]; eauto|exact H1]|]. split.
      + constructor; [|exact H2]. cbn [py_op_ok]. exists ps. split; [exact P1|]. split; [exact P2|]. split; [exact P3|].
        split; [rewrite T; apply Hc|exact Hb].
      + intros st0. cbn [run_num_ops run_num_op run_py_ops run_py_op]. rewrite (set_number_cell _ _ _ E).
        destruct (py_setitem p ix (PyScalar c) st0) as [s1 [u|e|]]; [apply H3|reflexivity|reflexivity].
    - exists (o :: ops'). split; [constructor; [reflexivity|exact H1]|]. split; [now constructor|].
      intros st0. cbn [run_num_ops run_num_op run_py_ops]. destruct (run_py_op p o st0) as [s1 [u|e|]]; [apply H3|reflexivity|reflexivity]. }
  destruct X as (ops' & H1 & H2 & H3). destruct (@history_theorem p ops' st K W H2 N) as (st' & E & R).
  exists ops', st'. split; [exact H1|]. rewrite H3. auto.
Qed.

Lemma number_fails t p ix ps v st : np_select (d_shape (pd_base p)) ix = Some ps -> regular_index (d_shape (pd_base p)) ix ->
  Forall (fun k => 0 < k) (np_count ps) -> scalar_cell t v = PyRaise (CppError ERuntime) -> exists e, py_set_number t p ix v st = (st, PyRaise e).
Proof.
  intros SEL REG Z NA. destruct (roi_spec (d_shape (pd_base p)) ix) as [_ [RS _]].
  destruct (RS ps SEL REG) as [rb [zn [E BOX]]]. unfold py_set_number. rewrite E, (proj1 BOX), zero_Z.
  assert (NZ : existsb (N.eqb 0) (np_count ps) = false).
  { clear -Z. induction Z as [|k l P Z IH]; [reflexivity|]. cbn [existsb]. rewrite IH, orb_false_r.
    destruct (N.eqb_spec 0 k); [lia|reflexivity]. }
  rewrite NZ. pose proof (@to_sizes_def rb) as B. pose proof (@to_sizes_def (map Some (map Z.of_N (np_count ps)))) as N.
  destruct (to_sizes rb) as [x|e|]; cbn [pbind]; [|eauto|contradiction].
  destruct (to_sizes (map Some (map Z.of_N (np_count ps)))) as [y|e|]; cbn [pbind]; [|eauto|contradiction].
  rewrite NA. eauto.
Qed.
Lemma complex_cell t re im : integer_type t <> None \/ real_type t <> None -> scalar_cell t (PComplex re im) = PyRaise (CppError ERuntime).
Proof. intros [H|H]; destruct t; try contradiction; reflexivity. Qed.

(** Integers in the range of the wide type are stored modulo 2^width. *)
Lemma cell_modulo t signed z : integer_type t = Some signed ->
  (if signed then - 2 ^ 63 <= z < 2 ^ 63 else 0 <= z < 2 ^ 64)%Z ->
  exists c k, scalar_cell t (PInt z) = PyOk c /\ scalar_cell t (PIndex z) = PyOk c /\
    lenN c = dtype_size t /\ integer_value signed c = (z + k * 2 ^ (8 * Z.of_N (dtype_size t)))%Z.
Proof.
  intros T H. exists (int_cell t z). destruct (range_of T) as (lo & hi & ER & ES & W & _).
  set (n := (8 * Z.of_N (dtype_size t))%Z).
  assert (P : (0 < 2 ^ n)%Z) by (apply Z.pow_pos_nonneg; lia).
  assert (M : exists k, (z mod 2 ^ n = z + k * 2 ^ n)%Z) by (exists (- (z / 2 ^ n))%Z; pose proof (Z.div_mod z (2 ^ n)); lia).
  destruct M as (k & Mk).
  exists (if signed && (2 ^ (n - 1) <=? z mod 2 ^ n) then k - 1 else k)%Z.
  assert (E : forall v, v = PInt z \/ v = PIndex z -> scalar_cell t v = PyOk (int_cell t z)).
  { intros v Hv. unfold scalar_cell. rewrite ER, ES. assert (HB : forall a b, (a <= z <= b)%Z -> ((a <=? z) && (z <=? b))%Z = true)
      by (intros a b Hab; apply andb_true_intro; split; apply Zle_imp_le_bool; lia).
    destruct Hv as [-> | ->]; cbn [load_int]; destruct signed; cbn [fst snd]; rewrite HB by lia; reflexivity. }
  split; [apply E; auto|]. split; [apply E; auto|]. split; [unfold lenN; rewrite int_cell_length; apply N2Nat.id|].
  unfold integer_value. rewrite unsigned_int, int_cell_length, N_nat_Z. fold n. destruct (signed && _)%bool; lia.
Qed.
Lemma trunc_neg z : (z < 0)%Z -> exists y, dbl_trunc (dbl_of_Z z) = Some y /\ (y < 0)%Z.
Proof.
  destruct z as [|p|p]; try lia. intros _. cbn [dbl_of_Z]. unfold round_pos.
  set (k := Z.max 0 (Z.log2 (Zpos p) + 1 - 53)). set (q := (Zpos p / 2 ^ k)%Z). cbv zeta.
  assert (Q : (1 <= q)%Z).
  { unfold q. apply Z.div_le_lower_bound; [apply Z.pow_pos_nonneg; lia|]. rewrite Z.mul_1_r. destruct (Z.log2_spec (Zpos p) ltac:(lia)) as [L _].
    pose proof (Z.log2_nonneg (Zpos p)). apply Z.le_trans with (2 ^ Z.log2 (Zpos p))%Z; [apply Z.pow_le_mono_r; lia|exact L]. }
  set (up := (_ || _)%bool). destruct (if up then q + 1 else q)%Z as [|p'|p'] eqn:EP; [destruct up; lia| |destruct up; lia].
  destruct (pstrip_ok p') as [_ L]. cbn [dbl_trunc]. eexists. split; [reflexivity|].
  destruct (Z.leb_spec 0 (snd (pstrip p') + k)); [|lia]. pose proof (Z.pow_pos_nonneg 2 (snd (pstrip p') + k)). nia.
Qed.
Lemma negative_cell t z : integer_type t = Some false -> (- 2 ^ 1023 <= z < 0)%Z -> scalar_cell t (PInt z) = PyUB.
Proof.
  intros T H. destruct (range_of T) as (lo & hi & ER & ES & W & HI & _ & H0). specialize (H0 Logic.eq_refl). unfold scalar_cell. rewrite ER, ES.
  cbn [load_int fst snd]. destruct (Z.leb_spec 0 z) as [L|L]; [lia|]. cbn [andb].
  destruct (trunc_neg (z := z)) as (y & Ey & Hy); [lia|].
  assert (D : exists x, load_double (PInt z) = Some x /\ dbl_trunc x = Some y).
  { cbn [load_double]. destruct (dbl_of_Z z) as [| | |s m e] eqn:EZ; try (eexists; split; [reflexivity|exact Ey]).
    assert (B : (Zpos m * 2 ^ e < 2 ^ 1024)%Z).
    { destruct z as [|p|p]; try lia. cbn [dbl_of_Z] in EZ. unfold round_pos in EZ. revert EZ.
      set (k := Z.max 0 (Z.log2 (Zpos p) + 1 - 53)). set (q := (Zpos p / 2 ^ k)%Z). cbv zeta.
      set (up := (_ || _)%bool). destruct (if up then q + 1 else q)%Z as [|p'|p'] eqn:EP; intros EZ; [discriminate| |discriminate].
      injection EZ as _ <- <-. destruct (pstrip_ok p') as [Eq Lq]. rewrite Z.pow_add_r by lia. rewrite Z.mul_assoc, <- Eq.
      assert (PK : (0 < 2 ^ k)%Z) by (apply Z.pow_pos_nonneg; lia).
      assert (QK : (q * 2 ^ k <= Zpos p)%Z) by (unfold q; rewrite Z.mul_comm; apply Z.mul_div_le; lia).
      assert (K2 : (2 ^ k <= Zpos p)%Z).
      { destruct (Z.log2_spec (Zpos p) ltac:(lia)) as [L1 _]. pose proof (Z.log2_nonneg (Zpos p)).
        apply Z.le_trans with (2 ^ Z.log2 (Zpos p))%Z; [apply Z.pow_le_mono_r; lia|exact L1]. }
      assert (PP : (Zpos p <= 2 ^ 1023)%Z) by lia. assert (KL : (k <= 971)%Z).
      { unfold k. assert (Z.log2 (Zpos p) <= 1023)%Z by (rewrite <- (Z.log2_pow2 1023) by lia; now apply Z.log2_le_mono). lia. }
      assert (KB : (2 ^ k <= 2 ^ 971)%Z) by (apply Z.pow_le_mono_r; lia).
      assert (BB : (2 ^ 1023 + 2 ^ 971 < 2 ^ 1024)%Z) by reflexivity.
      destruct up; nia. }
    destruct (Z.ltb_spec (Zpos m * 2 ^ e) (2 ^ 1024)); [|lia]. eexists; split; [reflexivity|exact Ey]. }
  destruct D as (x & -> & Ex). unfold dbl_to_int. rewrite Ex. destruct (Z.leb_spec lo y); [lia|reflexivity].
Qed.
