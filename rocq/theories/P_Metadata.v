(** Proofs about dataset metadata. *)
From Coq Require Import ZArith String.
From Verif Require Import M_Base P_Base M_Double M_Json M_Metadata S_Metadata.
Import ListNotations.
Local Open Scope list_scope.
Local Open Scope N_scope.

(** * Doubles *)

Lemma pstrip_ok : forall p, (Zpos p = Zpos (fst (pstrip p)) * 2 ^ snd (pstrip p))%Z
  /\ (0 <= snd (pstrip p))%Z.
Proof.
  induction p as [p IH|p IH|]; cbn [pstrip fst snd]; try (split; [rewrite Z.pow_0_r|]; lia).
  destruct IH as [E L]. split; [|lia].
  rewrite Z.pow_add_r by lia. change (2 ^ 1)%Z with 2%Z. rewrite Pos2Z.inj_xO. 
  rewrite E at 1. lia.
Qed.

Lemma pstrip_odd : forall m, (exists n, m = xI n \/ m = xH) -> pstrip m = (m, 0%Z).
Proof. intros m [n [->| ->]]; reflexivity. Qed.

Lemma pstrip_shift m : (exists n, m = xI n \/ m = xH) ->
  forall k p, (0 <= k)%Z -> Zpos p = (Zpos m * 2 ^ k)%Z -> pstrip p = (m, k).
Proof.
  intros O k p K. revert p. pattern k. apply natlike_ind; [| |exact K].
  - intros p E. rewrite Z.pow_0_r, Z.mul_1_r in E. inversion E. now apply pstrip_odd.
  - intros x X IH p E. rewrite Z.pow_succ_r in E by lia.
    destruct p as [p|p|].
    + exfalso. rewrite Pos2Z.inj_xI in E. lia.
    + assert (Zpos p = Zpos m * 2 ^ x)%Z by lia.
      simpl. rewrite (IH p H). simpl. f_equal. 
    + exfalso. lia.
Qed.

Lemma round_pos_exact neg m e p :
  (exists n, m = xI n \/ m = xH) -> (Zpos m < 2 ^ 53)%Z -> (0 <= e)%Z ->
  Zpos p = (Zpos m * 2 ^ e)%Z -> round_pos neg p = DFin neg m e.
Proof.
  intros O M E P. unfold round_pos.
  assert (L : Z.log2 (Zpos p) = (Z.log2 (Zpos m) + e)%Z).
  { rewrite P. rewrite Z.log2_mul_pow2; lia. }
  assert (LM : (Z.log2 (Zpos m) < 53)%Z) by (apply Z.log2_lt_pow2; lia).
  set (k := Z.max 0 (Z.log2 (Zpos p) + 1 - 53)).
  assert (K : (0 <= k <= e)%Z) by (unfold k; lia).
  assert (Q : Zpos p = ((Zpos m * 2 ^ (e - k)) * 2 ^ k)%Z).
  { rewrite <- Z.mul_assoc, <- Z.pow_add_r by lia. rewrite P. do 2 f_equal. lia. }
  assert (PK : (0 < 2 ^ k)%Z) by (apply Z.pow_pos_nonneg; lia).
  rewrite Q, Z.div_mul, Z.mod_mul by lia.
  assert (U : ((2 ^ k <? 2 * 0) || ((2 ^ k =? 2 * 0) && Z.odd (Zpos m * 2 ^ (e - k))))%Z = false).
  { rewrite Z.mul_0_r. destruct (2 ^ k <? 0)%Z eqn:A; [lia|].
    destruct (2 ^ k =? 0)%Z eqn:B; [lia|reflexivity]. }
  rewrite U.
  assert (PE : (0 < 2 ^ (e - k))%Z) by (apply Z.pow_pos_nonneg; lia).
  destruct (Zpos m * 2 ^ (e - k))%Z as [|q|q] eqn:EQ; try lia.
  rewrite (@pstrip_shift m O (e - k) q) by lia. simpl. f_equal. lia.
Qed.

(** An integer obtained by truncating a double converts back to the same integer
    value. *)
Lemma of_Z_integral x z : dbl_ok x -> dbl_trunc x = Some z ->
  exists x', dbl_of_Z z = x' /\ dbl_trunc x' = Some z.
Proof.
  intros OK T. eexists. split; [reflexivity|].
  revert OK. unfold dbl_ok. intros OK.
  destruct x as [|n|n|s m e]; cbn [dbl_trunc] in T; try discriminate.
  - inversion T. reflexivity.
  - destruct OK as (O & M & E1 & E2).
    destruct (0 <=? e)%Z eqn:E.
    + assert (PE : (0 < 2 ^ e)%Z) by (apply Z.pow_pos_nonneg; lia).
      destruct (Zpos m * 2 ^ e)%Z as [|p|p] eqn:EP; try lia.
      assert (R : forall neg, round_pos neg p = DFin neg m e)
        by (intros neg; apply round_pos_exact; lia || assumption).
      destruct s; inversion T; subst z; cbn [dbl_of_Z Z.opp]; rewrite R; cbn [dbl_trunc]; rewrite E, EP; reflexivity.
    + assert (PE : (0 < 2 ^ (- e))%Z) by (apply Z.pow_pos_nonneg; lia).
      set (a := (Zpos m / 2 ^ (- e))%Z) in *.
      assert (A : (0 <= a < 2 ^ 53)%Z).
      { unfold a. split; [apply Z.div_pos; lia|].
        apply Z.le_lt_trans with (Zpos m); [|lia].
        apply Z.div_le_upper_bound; nia. }
      assert (RT : forall neg p, (Zpos p < 2 ^ 53)%Z ->
        dbl_trunc (round_pos neg p) = Some (if neg then Zneg p else Zpos p)).
      { intros neg p B. destruct (pstrip_ok p) as [P1 P2].
        destruct (pstrip p) as [q t] eqn:EQ. cbn [fst snd] in P1, P2.
        assert (O' : exists n, q = xI n \/ q = xH).
        { clear - EQ. revert q t EQ. induction p; simpl; intros q t EQ.
          - inversion EQ. eauto.
          - destruct (pstrip p) as [a b]. simpl in EQ. inversion EQ. subst. eapply IHp. reflexivity.
          - inversion EQ. exists xH. now right. }
        assert (PT : (0 < 2 ^ t)%Z) by (apply Z.pow_pos_nonneg; lia).
        assert (QP : (Zpos q <= Zpos p)%Z)
          by (rewrite P1; apply Z.le_mul_diag_r; lia).
        rewrite (@round_pos_exact neg q t p O') by (assumption || lia).
        cbn [dbl_trunc]. replace (0 <=? t)%Z with true by lia. rewrite <- P1.
        destruct neg; reflexivity. }
      destruct s; inversion T as [TZ]; subst z.
      * destruct a as [|p|p] eqn:EA; [reflexivity| |lia]. cbn [dbl_of_Z Z.opp]. rewrite RT by lia. reflexivity.
      * destruct a as [|p|p] eqn:EA; [reflexivity| |lia]. cbn [dbl_of_Z Z.opp]. rewrite RT by lia. reflexivity.
Qed.

(** * Options *)

Lemma wrap_int_id z : is_int z -> wrap_int z = z.
Proof. unfold is_int, wrap_int. intros H. rewrite Z.mod_small by lia. lia. Qed.

Lemma get_int_reparse z : is_int z -> jget_int (reparse (JInt z)) = Ok z.
Proof.
  intros H. simpl. destruct (0 <=? z)%Z eqn:E; simpl; rewrite ?Z2N.id by lia;
    now rewrite wrap_int_id.
Qed.

Lemma sfind_In V k (l : list (string * V)) v : sfind k l = Some v -> In (k, v) l.
Proof.
  induction l as [|[k' v'] r IH]; simpl; [discriminate|].
  destruct (String.eqb_spec k' k) as [->|NE]; [intros E; inversion E; now left|auto].
Qed.

Lemma opt_int_ok k o z : options_ok o -> opt_int k o = Ok z -> is_int z.
Proof.
  unfold opt_int, sat. intros H.
  destruct (sfind k o) as [v|] eqn:F; simpl; [|discriminate].
  destruct v; try discriminate. intros E. inversion E; subst.
  eapply H. eapply sfind_In. exact F.
Qed.

Lemma jshape_list_uint l : jshape_list (map JUInt l) = Ok l.
Proof. induction l as [|a l IH]; simpl; [reflexivity|]. now rewrite IH. Qed.
Lemma reparse_shape l : reparse (jof_shape l) = jof_shape l.
Proof. unfold jof_shape. simpl. f_equal. rewrite map_map. reflexivity. Qed.
Lemma jshape_of l : jshape (jof_shape l) = Ok l.
Proof. apply jshape_list_uint. Qed.
Lemma jshape_rev_of l : jshape_rev (jof_shape (rev l)) = Ok l.
Proof. unfold jshape_rev, jof_shape. simpl. rewrite <- map_rev, rev_involutive. apply jshape_list_uint. Qed.

Lemma fill_v2 x : fill_of_json DNan (reparse (fill_json x)) = Ok x.
Proof. destruct x as [|[]|[]|s m e]; reflexivity. Qed.

(** * Zarr v2 *)

Lemma bind_ok A B (x : outcome A) (f : A -> outcome B) b :
  bind x f = Ok b -> exists a, x = Ok a /\ f a = Ok b.
Proof. destruct x; simpl; intros H; try discriminate. eauto. Qed.

Ltac binds H :=
  let a := fresh "a" in let E := fresh "E" in
  first [ apply bind_ok in H; destruct H as [a [E H]]; cbv beta in H; binds H | idtac ].

Lemma dtype_zarr_back d s : dtype_to_zarr d = Some s -> sfind s zarr_to_dtype = Some d.
Proof. destruct d; simpl; intros E; inversion E; reflexivity. Qed.
Lemma dtype_n5_back d s : dtype_to_n5 d = Some s -> sfind s n5_to_dtype = Some d.
Proof. destruct d; simpl; intros E; inversion E; reflexivity. Qed.

Lemma eat_ok o s : eat o = Ok s -> o = Some s.
Proof. destruct o; simpl; intros E; inversion E; reflexivity. Qed.

Ltac ints OK :=
  repeat match goal with
  | E : opt_int _ _ = Ok ?z |- _ =>
      lazymatch goal with
      | _ : is_int z |- _ => fail
      | _ => pose proof (opt_int_ok OK E)
      end
  end.

Lemma get_int_num z : is_int z ->
  jget_int (if (0 <=? z)%Z then JUInt (Z.to_N z) else JInt z) = Ok z.
Proof. apply get_int_reparse. Qed.

Ltac same_opts :=
  repeat match goal with
  | H : opt_int ?k ?o = Ok _, H' : opt_int ?k ?o = Ok _ |- _ =>
      rewrite H in H'; inversion H'; subst; clear H'
  | H : opt_str ?k ?o = Ok _, H' : opt_str ?k ?o = Ok _ |- _ =>
      rewrite H in H'; inversion H'; subst; clear H'
  | H : opt_bool ?k ?o = Ok _, H' : opt_bool ?k ?o = Ok _ |- _ =>
      rewrite H in H'; inversion H'; subst; clear H'
  end.

Ltac names :=
  repeat match goal with
  | E : or_runtime _ = Ok ?a |- _ => is_var a; simpl in E; inversion E; subst; clear E
  end.

Lemma zarr_options_back c o copts cfg :
  options_ok o ->
  write_zarr_options c o = Ok copts -> init_compressor c o = Ok cfg ->
  exists id o' cfg',
    (if jis_null (reparse copts) then Ok "raw"%string else jidx_str "id" (reparse copts)) = Ok id /\
    sfind id zarr_to_compressor = Some c /\
    read_zarr_options c (reparse copts) [] = Ok o' /\
    init_compressor c o' = Ok cfg' /\ same_codec cfg cfg'.
Proof.
  intros OK W I.
  destruct c; simpl in W; try (unfold init_compressor in I); try discriminate;
    binds W; binds I; inversion W; inversion I; subst; same_opts; names; ints OK;
    try (match goal with b : bool |- _ => destruct b end);
    do 3 eexists; (split; [reflexivity|]); (split; [reflexivity|]);
    cbn -[jget_int Z.leb]; rewrite ?get_int_num by assumption; cbn -[jget_int Z.leb];
    rewrite ?get_int_num by assumption; cbn -[jget_int Z.leb];
    rewrite ?get_int_num by assumption; cbn -[jget_int Z.leb];
    rewrite ?get_int_num by assumption; cbn -[jget_int Z.leb]; repeat split.
Qed.

Lemma n5_options_back c o copts cfg :
  options_ok o ->
  write_n5_options c o = Ok copts -> init_compressor c o = Ok cfg ->
  exists ty o' cfg',
    jfind "type" (reparse copts) = Some (JStr ty) /\
    sfind ty n5_to_compressor = Some c /\
    read_n5_options c (reparse copts) [] = Ok o' /\
    init_compressor c o' = Ok cfg' /\
    match cfg with
    | Cfg_zlib l _ => cfg' = Cfg_zlib l false
    | _ => cfg' = cfg
    end.
Proof.
  intros OK W I.
  destruct c; simpl in W; try (unfold init_compressor in I); try discriminate;
    binds W; binds I; inversion W; inversion I; subst; same_opts; names; ints OK;
    try (match goal with E : match sfind ?k ?o with _ => _ end = Ok ?z, E' : opt_int ?k ?o = Ok ?z' |- _ =>
      assert (z = z') by (unfold opt_int, sat in E'; destruct (sfind k o) as [[]|]; simpl in E'; congruence);
      subst z
    end);
    do 3 eexists; (split; [reflexivity|]); (split; [reflexivity|]);
    cbn -[jget_int Z.leb]; rewrite ?get_int_num by assumption; cbn -[jget_int Z.leb];
    rewrite ?get_int_num by assumption; cbn -[jget_int Z.leb];
    rewrite ?get_int_num by assumption; cbn -[jget_int Z.leb];
    rewrite ?get_int_num by assumption; cbn -[jget_int Z.leb];
    rewrite ?get_int_num by assumption; cbn -[jget_int Z.leb]; repeat split.
Qed.

Lemma reparse_obj l : reparse (JObj l) = JObj (map (fun kv => (fst kv, reparse (snd kv))) l).
Proof. simpl. f_equal. apply map_ext. now intros []. Qed.

Ltac rd := cbn [map fst snd jfind jidx jat jlookup bind jget_str jidx_str
                String.eqb Ascii.eqb Bool.eqb jcontains].

Lemma v2_back m j cfg :
  md_zarr m = true -> md_format m = 2%Z -> md_shard m = [] ->
  lenN (md_shape m) = lenN (md_chunks m) -> options_ok (md_opts m) ->
  to_json m = Ok j -> init_compressor (md_comp m) (md_opts m) = Ok cfg ->
  exists m' cfg',
    from_json (reparse j) true = Ok m' /\
    same_array m m' /\ md_zarr m' = true /\ md_format m' = 2%Z /\
    md_fill m' = md_fill m /\ md_delim m' = md_delim m /\ md_comp m' = md_comp m /\
    init_compressor (md_comp m') (md_opts m') = Ok cfg' /\ same_codec cfg cfg'.
Proof.
  intros Z F S D OK T I. unfold to_json in T. rewrite Z, F in T. simpl in T.
  unfold to_json_v2 in T. binds T. inversion T; subst; clear T.
  apply eat_ok in E0.
  destruct (zarr_options_back OK E I) as (id & o' & cfg' & I1 & I2 & I3 & I4 & I5).
  exists (Metadata true 2 (md_dtype m) (md_shape m) (md_chunks m) (md_comp m) o' (md_fill m)
            (md_delim m) "default" []), cfg'.
  split; [|repeat split; auto].
  rewrite reparse_obj. rewrite F. unfold from_json, from_json_v2. rd.
  rewrite !reparse_shape. change (reparse (JInt 2)) with (JUInt 2). cbn [jget_int wrap_int bind].
  change (wrap_int (Z.of_N 2) =? 3)%Z with false. cbv iota.
  unfold check_json. rd. cbn [reparse jeq_str negb jeq_int jis_null andb].
  change (String.eqb "C" "C") with true. change (Z.of_N 2 =? 2)%Z with true. cbn [negb bind jget_str].
  unfold sat at 1. rewrite (@dtype_zarr_back _ _ E0). cbn [or_runtime bind].
  rewrite !jshape_of. cbn [bind]. rewrite fill_v2. cbn [bind].
  rewrite I1. cbn [bind]. unfold sat. rewrite I2. cbn [or_runtime bind]. rewrite I3. cbn [bind].
  unfold check_shapes. cbn [md_shape md_chunks]. rewrite D, N.eqb_refl. reflexivity.
Qed.

Lemma n5_back m j cfg :
  md_zarr m = false -> md_shard m = [] ->
  lenN (md_shape m) = lenN (md_chunks m) -> options_ok (md_opts m) ->
  to_json m = Ok j -> init_compressor (md_comp m) (md_opts m) = Ok cfg ->
  exists m' cfg',
    from_json (reparse j) false = Ok m' /\
    same_array m m' /\ md_zarr m' = false /\
    md_fill m' = DZero false /\ md_comp m' = md_comp m /\
    init_compressor (md_comp m') (md_opts m') = Ok cfg' /\
    match cfg with
    | Cfg_zlib l _ => cfg' = Cfg_zlib l false
    | _ => cfg' = cfg
    end.
Proof.
  intros Z S D OK T I. unfold to_json in T. rewrite Z in T. simpl in T.
  unfold to_json_n5 in T. binds T. inversion T; subst; clear T.
  apply eat_ok in E.
  destruct (n5_options_back OK E0 I) as (ty & o' & cfg' & I1 & I2 & I3 & I4 & I5).
  exists (Metadata false 2 (md_dtype m) (md_shape m) (md_chunks m) (md_comp m) o' (DZero false)
            "" "default" []), cfg'.
  split; [|repeat split; auto].
  rewrite reparse_obj. unfold from_json, from_json_n5. rd.
  rewrite !reparse_shape. cbn [reparse jget_str bind].
  unfold sat at 1. rewrite (@dtype_n5_back _ _ E). cbn [bind].
  rewrite !jshape_rev_of. cbn [bind].
  fold (jfind "type" (reparse a0)). rewrite I1. cbn [jget_str bind].
  unfold sat. rewrite I2. cbn [or_runtime bind]. rewrite I3. cbn [bind fst snd].
  unfold check_shapes. cbn [md_shape md_chunks]. rewrite D, N.eqb_refl. reflexivity.
Qed.

(** * Zarr v3 *)

(** What a codec configuration is read back as from a zarr v3 document. *)
Definition v3_view (cfg : codec_config) : codec_config :=
  match cfg with
  | Cfg_zlib l _ => Cfg_zlib l false
  | Cfg_blosc l s n b _ =>
      Cfg_blosc l (if (s =? 0)%Z then 0 else if (s =? 2)%Z then 2 else 1) n b 1
  | _ => cfg
  end.

Lemma v3_codecs_back c o ts inner cfg :
  options_ok o ->
  write_v3_codecs c o ts = Ok inner -> init_compressor c o = Ok cfg ->
  exists o',
    find_sharding (jelems (reparse inner)) = Ok None /\
    read_v3_codecs (reparse inner) [] = Ok (c, o') /\
    init_compressor c o' = Ok (v3_view cfg).
Proof.
  intros OK W I.
  destruct c; simpl in W; try (unfold init_compressor in I); try discriminate;
    binds W; binds I; inversion W; inversion I; subst; same_opts; names; ints OK;
    try (match goal with |- context [shuffle_name ?s] =>
           unfold shuffle_name; destruct (s =? 0)%Z eqn:?; [|destruct (s =? 2)%Z eqn:?] end);
    eexists; (split; [reflexivity|]);
    unfold read_v3_codecs; cbn -[jget_int Z.leb]; unfold jvalue;
    cbn -[jget_int Z.leb]; rewrite ?get_int_num by assumption; cbn -[jget_int Z.leb];
    rewrite ?get_int_num by assumption; cbn -[jget_int Z.leb Z.eqb];
    (split; [reflexivity|]); cbn -[Z.eqb];
    repeat match goal with H : (_ =? _)%Z = _ |- _ => rewrite H end; reflexivity.
Qed.

Lemma fill_v3 d x fv e :
  dbl_ok x -> fill_json_v3 d x = Ok fv -> element_fill d x = Ok e ->
  exists x', fill_of_json (DZero false) (reparse fv) = Ok x' /\ element_fill d x' = Ok e /\
             (~ integer_dtype d -> x' = x).
Proof.
  intros OK W EF. unfold fill_json_v3 in W.
  destruct (dbl_is_nan x || dbl_is_inf x) eqn:SP.
  - inversion W; subst. exists x. split; [|auto]. destruct x as [|[]|?|? ? ?]; try discriminate; reflexivity.
  - assert (FL : fv = JReal x -> ~ integer_dtype d ->
             exists x', fill_of_json (DZero false) (reparse fv) = Ok x' /\ element_fill d x' = Ok e /\
             (~ integer_dtype d -> x' = x)).
    { intros -> ND. exists x. destruct x; try discriminate; repeat split; auto. }
    assert (IN : forall z v, dbl_trunc x = Some z -> fv = v -> jget_double (reparse v) = Ok (dbl_of_Z z) ->
             (forall y, reparse v <> JStr y) -> reparse v <> JNull -> integer_dtype d ->
             exists x', fill_of_json (DZero false) (reparse fv) = Ok x' /\ element_fill d x' = Ok e /\
             (~ integer_dtype d -> x' = x)).
    { intros z v T -> G NS NN ID. destruct (of_Z_integral OK T) as (x' & X1 & X2). subst x'.
      exists (dbl_of_Z z). split; [|split; [|tauto]].
      - unfold fill_of_json. destruct (reparse v); try assumption; exfalso; solve [now apply NN | now eapply NS].
      - revert EF. unfold element_fill, dbl_to_int. rewrite T, X2.
        destruct d; solve [auto | exfalso; exact ID]. }
    assert (SG : forall r, fv = r -> integer_dtype d -> forall lo hi z, dbl_to_int lo hi x = Ok z ->
              r = JInt z -> exists x', fill_of_json (DZero false) (reparse fv) = Ok x' /\ element_fill d x' = Ok e /\
             (~ integer_dtype d -> x' = x)).
    { intros r -> ID lo hi z T ->. unfold dbl_to_int in T.
      destruct (dbl_trunc x) as [z'|] eqn:TT; [|discriminate].
      destruct ((lo <=? z') && (z' <=? hi))%Z eqn:B; [|discriminate]. inversion T; subst z'.
      apply (IN z (JInt z) eq_refl eq_refl); auto; simpl; destruct (0 <=? z)%Z eqn:P; simpl;
        rewrite ?Z2N.id by lia; try reflexivity; discriminate. }
    assert (UN : forall r, fv = r -> integer_dtype d -> forall hi z, dbl_to_int 0 hi x = Ok z ->
              r = JUInt (Z.to_N z) -> exists x', fill_of_json (DZero false) (reparse fv) = Ok x' /\ element_fill d x' = Ok e /\
             (~ integer_dtype d -> x' = x)).
    { intros r -> ID hi z T ->. unfold dbl_to_int in T.
      destruct (dbl_trunc x) as [z'|] eqn:TT; [|discriminate].
      destruct ((0 <=? z') && (z' <=? hi))%Z eqn:B; [|discriminate]. inversion T; subst z'.
      apply (IN z (JUInt (Z.to_N z)) eq_refl eq_refl); auto; simpl;
        rewrite ?Z2N.id by lia; try reflexivity; discriminate. }
    destruct d; simpl in W;
      first [ binds W; inversion W; subst; eapply SG; [reflexivity|exact Logic.I|eassumption|reflexivity]
            | binds W; inversion W; subst; eapply UN; [reflexivity|exact Logic.I|eassumption|reflexivity]
            | inversion W; subst; apply FL; [reflexivity|simpl; tauto] ].
Qed.

Lemma v3_back m j cfg e :
  md_zarr m = true -> md_format m = 3%Z ->
  lenN (md_shape m) = lenN (md_chunks m) -> options_ok (md_opts m) -> dbl_ok (md_fill m) ->
  to_json m = Ok j -> init_compressor (md_comp m) (md_opts m) = Ok cfg ->
  element_fill (md_dtype m) (md_fill m) = Ok e ->
  exists m',
    from_json (reparse j) true = Ok m' /\
    same_array m m' /\ md_zarr m' = true /\ md_format m' = 3%Z /\
    element_fill (md_dtype m') (md_fill m') = Ok e /\
    (~ integer_dtype (md_dtype m) -> md_fill m' = md_fill m) /\
    md_delim m' = md_delim m /\ md_enc m' = md_enc m /\ md_comp m' = md_comp m /\
    init_compressor (md_comp m') (md_opts m') = Ok (v3_view cfg).
Proof.
  intros Z F D OK FO T I EF. unfold to_json in T. rewrite Z, F in T. simpl in T.
  unfold to_json_v3 in T. binds T. inversion T; subst; clear T.
  apply eat_ok in E.
  destruct (v3_codecs_back OK E1 I) as (o' & I1 & I2 & I3).
  destruct (fill_v3 FO E0 EF) as (x' & F1 & F2 & F3).
  exists (Metadata true 3 (md_dtype m) (md_shape m) (md_chunks m) (md_comp m) o' x'
            (md_delim m) (md_enc m) (md_shard m)).
  split; [|repeat split; auto].
  assert (SH : find_sharding (jelems (reparse (if match md_shard m with [] => false | _ => true end
      then JArr [JObj [("name", JStr "sharding_indexed");
                  ("configuration",
                    JObj [("chunk_shape", jof_shape (md_chunks m)); ("codecs", a1);
                          ("index_codecs", JArr [bytes_codec; JObj [("name", JStr "crc32c")]]);
                          ("index_location", JStr "end")])]]%string else a1)))
     = Ok (if match md_shard m with [] => false | _ => true end
           then Some (JObj [("chunk_shape", jof_shape (md_chunks m)); ("codecs", reparse a1);
                          ("index_codecs", JArr [bytes_codec; JObj [("name", JStr "crc32c")]]);
                          ("index_location", JStr "end")])%string else None)).
  { destruct (md_shard m); [exact I1|].
    match goal with |- context [reparse (JArr [?x])] =>
      change (reparse (JArr [x])) with (JArr [reparse x]) end.
    rewrite reparse_obj. cbn [map jelems find_sharding fst snd]. rewrite reparse_obj. cbn [map fst snd].
    rewrite reparse_shape. reflexivity. }
  rewrite reparse_obj. unfold from_json, from_json_v3. rd.
  rewrite !reparse_shape. change (reparse (JInt 3)) with (JUInt 3). cbn [jget_int wrap_int bind].
  change (wrap_int (Z.of_N 3) =? 3)%Z with true. cbv iota.
  change (jeq_str (reparse (JStr "array")) "array") with true.
  cbn [negb bind jget_str reparse map jat jfind jlookup]. rd.
  unfold sat at 1. rewrite (@dtype_n5_back _ _ E). cbn [or_runtime bind].
  rewrite jshape_of. cbn [bind].
  rewrite reparse_shape, jshape_of. cbn [bind]. rewrite F1. cbn [bind].
  rewrite SH. cbn [bind].
  destruct (md_shard m) as [|s0 sr] eqn:S.
  - cbn [bind]. rewrite I2. cbn [bind fst snd].
    unfold check_shapes. cbn [md_shape md_chunks]. rewrite D, N.eqb_refl. reflexivity.
  - rd. rewrite jshape_of. cbn [bind]. rewrite I2. cbn [bind fst snd].
    unfold check_shapes. cbn [md_shape md_chunks]. rewrite D, N.eqb_refl. reflexivity.
Qed.

(** * Names *)

Ltac find_name :=
  repeat match goal with
  | |- context [String.eqb ?a ?b] =>
      destruct (String.eqb_spec a b); [subst; intros X; inversion X; subst; cbn; auto |]
  end; intros; try discriminate.

Lemma dtype_zarr_iff d s : dtype_to_zarr d = Some s <-> sfind s zarr_to_dtype = Some d.
Proof.
  split; [apply dtype_zarr_back|].
  unfold zarr_to_dtype, sfind. find_name.
Qed.
Lemma dtype_n5_iff d s : dtype_to_n5 d = Some s <-> sfind s n5_to_dtype = Some d.
Proof.
  split; [apply dtype_n5_back|].
  unfold n5_to_dtype, sfind. find_name.
Qed.
Lemma comp_n5_iff c s : compressor_to_n5 c = Some s <-> sfind s n5_to_compressor = Some c.
Proof.
  split.
  - destruct c; simpl; intros E; inversion E; reflexivity.
  - unfold n5_to_compressor, sfind. find_name.
Qed.
Lemma comp_zarr_back c s : compressor_to_zarr c = Some s -> sfind s zarr_to_compressor = Some c.
Proof. destruct c; simpl; intros E; inversion E; reflexivity. Qed.
Lemma comp_zarr_read c s : sfind s zarr_to_compressor = Some c ->
  compressor_to_zarr c = Some s \/ (c = C_zlib /\ s = "gzip"%string).
Proof. unfold zarr_to_compressor, sfind. find_name. Qed.

(** * Creation *)

Lemma sput_In V k (v : V) l k' v' : In (k', v') (sput k v l) -> (k' = k /\ v' = v) \/ In (k', v') l.
Proof.
  induction l as [|[a b] r IH]; simpl.
  - intros [E|[]]. inversion E. auto.
  - destruct (String.eqb_spec a k); simpl.
    + intros [E|E]; [inversion E; subst; auto|auto].
    + intros [E|E]; [auto|]. destruct (IH E); auto.
Qed.

Lemma options_ok_put k v o : options_ok o -> (forall z, v = OInt z -> is_int z) -> options_ok (sput k v o).
Proof.
  intros H V k' z I. apply sput_In in I. destruct I as [[-> <-]|I]; [now apply V|eapply H; eauto].
Qed.

Lemma options_ok_default c b o : options_ok o -> options_ok (default_options c b o).
Proof.
  intros H.
  assert (D : forall k v o, options_ok o -> (forall z, v = OInt z -> is_int z) -> options_ok (default_opt k v o)).
  { intros k v o' H' V. unfold default_opt. destruct (sfind k o'); [assumption|now apply options_ok_put]. }
  destruct c; simpl; repeat apply D; auto; intros z E; inversion E; unfold is_int; lia.
Qed.

Lemma check_shard_ok sd ch : length sd = length ch -> check_shard sd ch = Ok tt -> 
  shards_of_chunks sd ch /\ Forall (fun c => 0 < c) ch.
Proof.
  revert ch. induction sd as [|s sd IH]; intros [|c ch] L C; simpl in *; try discriminate.
  - split; constructor.
  - destruct (s <? c) eqn:A; [discriminate|]. destruct (c =? 0) eqn:B; [discriminate|].
    destruct (s mod c =? 0) eqn:M; [|discriminate]. simpl in C.
    destruct (IH ch) as [I1 I2]; [lia|assumption|].
    split; constructor; auto; [|lia].
    exists (s / c). assert (s = c * (s / c)) by (apply N.div_exact; lia).
    assert (1 <= s / c) by (apply N.div_le_lower_bound; lia). split; lia.
Qed.

Lemma check_shard_iff sd ch : length sd = length ch -> Forall (fun c => 0 < c) ch ->
  (check_shard sd ch = Ok tt <-> shards_of_chunks sd ch) /\ check_shard sd ch <> UB.
Proof.
  revert ch. induction sd as [|s sd IH]; intros [|c ch] L P; simpl in *; try discriminate.
  - split; [split; constructor|discriminate].
  - inversion P as [|? ? P1 P2]; subst.
    destruct (IH ch ltac:(lia) P2) as [I1 I2].
    replace (c =? 0) with false by lia.
    destruct (s <? c) eqn:A.
    { split; [|discriminate]. split; [discriminate|]. intros S. inversion S as [|? ? ? ? [k [K1 K2]] ?]; subst. nia. }
    destruct (s mod c =? 0) eqn:M; simpl.
    + split; [|assumption]. rewrite I1. split.
      * intros S. constructor; [|assumption]. exists (s / c).
        assert (s = c * (s / c)) by (apply N.div_exact; lia).
        assert (1 <= s / c) by (apply N.div_le_lower_bound; lia). split; lia.
      * intros S. now inversion S.
    + split; [|discriminate]. split; [discriminate|].
      intros S. inversion S as [|? ? ? ? [k [K1 K2]] ?]; subst.
      rewrite N.mod_mul in M; lia.
Qed.

Lemma create_fields dn sh ch z cn o fill delim fmt enc shard m :
  create_metadata dn sh ch z cn o fill delim fmt enc shard = Ok m ->
  md_zarr m = z /\ md_format m = fmt /\ sfind dn n5_to_dtype = Some (md_dtype m) /\
  md_shape m = sh /\ md_chunks m = ch /\ sfind cn string_to_compressor = Some (md_comp m) /\
  md_opts m = default_options (md_comp m) z o /\ md_fill m = fill /\ md_delim m = delim /\
  md_enc m = enc /\ md_shard m = shard /\ lenN sh = lenN ch /\
  (shard <> [] -> z = true /\ fmt = 3%Z /\ lenN shard = lenN ch /\ check_shard shard ch = Ok tt).
Proof.
  unfold create_metadata, sat. intros H.
  destruct (sfind dn n5_to_dtype) as [dt|]; cbn [or_runtime bind] in H; [|discriminate].
  destruct (sfind cn string_to_compressor) as [c|]; cbn [or_runtime bind] in H; [|discriminate].
  binds H. unfold check_shapes in H. simpl in H.
  destruct (lenN sh =? lenN ch) eqn:L; [|discriminate]. inversion H; subst; simpl.
  repeat split; auto; try lia.
  all: destruct shard as [|s r]; [congruence|];
       destruct z; simpl in E; [|discriminate]; destruct (fmt =? 3)%Z eqn:F; simpl in E; try discriminate;
       destruct (lenN (s :: r) =? lenN ch) eqn:L2; cbn [negb] in E; try discriminate; try lia;
       try reflexivity.
  destruct a; assumption.
Qed.

(** * Damaged documents *)

Lemma no_reals_lookup k l v : no_reals (JObj l) -> jlookup k l = Some v -> no_reals v.
Proof.
  simpl. induction l as [|[k' v'] r IH]; simpl; [discriminate|]. intros [H1 H2].
  destruct (String.eqb k' k); [intros E; inversion E; subst; assumption|auto].
Qed.
Lemma no_reals_find k j v : no_reals j -> jfind k j = Some v -> no_reals v.
Proof. destruct j; simpl; try discriminate. apply no_reals_lookup. Qed.
Lemma no_reals_at k j v : no_reals j -> jat k j = Ok v -> no_reals v.
Proof.
  destruct j; try discriminate. intros H E. apply (@no_reals_lookup k l v H).
  cbn [jat] in E. destruct (jlookup k l); [inversion E; reflexivity|discriminate].
Qed.
Lemma no_reals_elems j : no_reals j -> Forall no_reals (jelems j).
Proof.
  destruct j; simpl; intros H; try (constructor; auto; fail).
  - induction l; [constructor|]. destruct H. constructor; auto.
  - induction l as [|[k v] l IH]; [constructor|]. destruct H. constructor; auto.
Qed.

Lemma bind_ub A B (x : outcome A) (f : A -> outcome B) :
  x <> UB -> (forall a, x = Ok a -> f a <> UB) -> bind x f <> UB.
Proof. destruct x; simpl; auto. discriminate. Qed.

Lemma jat_ub k j : jat k j <> UB.
Proof. destruct j; try discriminate. simpl. destruct (jlookup k l); discriminate. Qed.
Lemma jget_str_ub j : jget_str j <> UB.
Proof. destruct j; discriminate. Qed.
Lemma jget_int_ub j : no_reals j -> jget_int j <> UB.
Proof. destruct j; simpl; try discriminate. tauto. Qed.
Lemma jshape_list_ub l : Forall no_reals l -> jshape_list l <> UB.
Proof.
  induction 1 as [|x l H F IH]; simpl; [discriminate|].
  apply bind_ub; [destruct x; simpl in *; try discriminate; tauto|].
  intros n _. apply bind_ub; [assumption|discriminate].
Qed.
Lemma jshape_ub j : no_reals j -> jshape j <> UB.
Proof. intros H. apply jshape_list_ub. now apply no_reals_elems. Qed.
Lemma jshape_rev_ub j : no_reals j -> jshape_rev j <> UB.
Proof. intros H. apply jshape_list_ub. apply Forall_rev. now apply no_reals_elems. Qed.
Lemma sat_ub V k (l : list (string * V)) : sat k l <> UB.
Proof. unfold sat. destruct (sfind k l); discriminate. Qed.
Lemma or_runtime_ub A (x : outcome A) : x <> UB -> or_runtime x <> UB.
Proof. destruct x as [| [] |]; simpl; congruence. Qed.
Lemma fill_ub d j : fill_of_json d j <> UB.
Proof.
  destruct j; simpl; try discriminate.
  destruct (String.eqb s "NaN"); [discriminate|].
  destruct (String.eqb s "Infinity"); [discriminate|].
  destruct (String.eqb s "-Infinity"); discriminate.
Qed.
Lemma jvalue_ub A (get : json -> outcome A) k d j :
  (forall v, jfind k j = Some v -> get v <> UB) -> jvalue get k d j <> UB.
Proof.
  destruct j; simpl; try discriminate. intros H. destruct (jlookup k l) eqn:E; [auto|discriminate].
Qed.
Lemma check_shapes_ub m : check_shapes m <> UB.
Proof. unfold check_shapes. destruct (_ =? _); discriminate. Qed.
Lemma foldM_ub A B (P : A -> Prop) (f : B -> A -> outcome B) l acc :
  Forall P l -> (forall b a, P a -> f b a <> UB) -> foldM f l acc <> UB.
Proof.
  intros H F. revert acc. induction H; simpl; intros acc; [discriminate|].
  apply bind_ub; auto.
Qed.

Ltac no_ub :=
  repeat match goal with
  | |- bind _ _ <> UB => apply bind_ub; [|intros ? ?]
  | |- jat _ _ <> UB => apply jat_ub
  | |- jget_str _ <> UB => apply jget_str_ub
  | |- Ok _ <> UB => discriminate
  | |- Throw _ <> UB => discriminate
  | |- or_runtime _ <> UB => apply or_runtime_ub
  | |- sat _ _ <> UB => apply sat_ub
  | |- fill_of_json _ _ <> UB => apply fill_ub
  end.

Ltac dfind := match goal with |- context [jfind ?k ?j] => destruct (jfind k j) end.

Lemma read_v3_codec_ub acc c : no_reals c -> read_v3_codec acc c <> UB.
Proof.
  intros H. unfold read_v3_codec. no_ub.
  destruct (String.eqb _ "bytes"); [discriminate|].
  apply bind_ub; [destruct (jcontains _ _); no_ub|]. intros cfg C.
  assert (HC : no_reals cfg).
  { destruct (jcontains "configuration" c); [eapply no_reals_at; eauto|]. inversion C. simpl. auto. }
  assert (VI : forall k d, jvalue jget_int k d cfg <> UB).
  { intros k d. apply jvalue_ub. intros v E. apply jget_int_ub. eapply no_reals_find; eauto. }
  assert (VS : forall k d, jvalue jget_str k d cfg <> UB).
  { intros k d. apply jvalue_ub. intros v E. apply jget_str_ub. }
  destruct (String.eqb _ "gzip"); [apply bind_ub; auto; discriminate|].
  destruct (String.eqb _ "zstd"); [apply bind_ub; auto; discriminate|].
  destruct (String.eqb _ "blosc"); [|discriminate].
  apply bind_ub; auto. intros ? _. apply bind_ub; auto. intros ? _. apply bind_ub.
  - destruct (jcontains "shuffle" cfg); [|discriminate]. apply bind_ub; [apply jat_ub|]. intros s S.
    unfold shuffle_of_json. destruct (jis_integer s); [apply jget_int_ub; eapply no_reals_at; eauto|].
    no_ub.
  - intros ? _. apply bind_ub; auto. discriminate.
Qed.

Lemma find_sharding_ub l : find_sharding l <> UB.
Proof.
  induction l as [|c r IH]; simpl; [discriminate|]. no_ub.
  destruct (jeq_str _ _); [no_ub|assumption].
Qed.
Lemma find_sharding_reals l cfg : Forall no_reals l -> find_sharding l = Ok (Some cfg) -> no_reals cfg.
Proof.
  induction 1 as [|c r H F IH]; simpl; [discriminate|].
  intros E. binds E. destruct (jeq_str a _).
  - binds E. inversion E; subst. eapply no_reals_at; eauto.
  - auto.
Qed.

Lemma jat_find k j v : jat k j = Ok v -> jfind k j = Some v.
Proof.
  destruct j; try discriminate. simpl. destruct (jlookup k l); [|discriminate].
  intros E. now inversion E.
Qed.

Lemma v3_no_ub j : integral_fields j -> from_json_v3 j <> UB.
Proof.
  intros IF. unfold from_json_v3.
  assert (AT : forall k v, k <> "fill_value"%string -> jat k j = Ok v -> no_reals v).
  { intros k v N A. eapply IF; [exact N|]. now apply jat_find. }
  apply bind_ub; [apply jat_ub|]. intros nt _. destruct (negb _); [discriminate|].
  no_ub.
  - apply jshape_ub. eapply AT; [|eassumption]. discriminate.
  - apply jshape_ub. eapply no_reals_at; [|eassumption]. eapply no_reals_at; [|eassumption].
    eapply AT; [|eassumption]. discriminate.
  - dfind; [dfind; no_ub|no_ub].
  - apply find_sharding_ub.
  - match goal with E : find_sharding (jelems ?c) = Ok ?a, E' : jat "codecs" j = Ok ?c |- _ =>
      assert (NC : no_reals c) by (eapply AT; [|exact E']; discriminate);
      destruct a as [cfg|];
      [assert (NG : no_reals cfg) by (eapply find_sharding_reals; [|exact E]; now apply no_reals_elems)|]
    end.
    + no_ub. apply jshape_ub. eapply no_reals_at; eauto.
    + discriminate.
  - match goal with E : _ = Ok ?p |- _ => destruct p as [[ch shard] ic] end. no_ub.
    unfold read_v3_codecs. eapply foldM_ub with (P := no_reals); [|intros; now apply read_v3_codec_ub].
    apply no_reals_elems.
    match goal with E : find_sharding (jelems ?c) = Ok ?a, E' : jat "codecs" j = Ok ?c,
                    E2 : match ?a with _ => _ end = Ok _ |- _ =>
      assert (NC : no_reals c) by (eapply AT; [|exact E']; discriminate);
      destruct a as [cfg|];
      [assert (NG : no_reals cfg) by (eapply find_sharding_reals; [|exact E]; now apply no_reals_elems)|]
      ; binds E2; inversion E2; subst
    end; [eapply no_reals_at; eauto|assumption].
Qed.

Lemma jidx_has k j : jfind k j <> None -> exists v, jidx k j = Ok v /\ jfind k j = Some v.
Proof.
  destruct j; simpl; try congruence. destruct (jlookup k l); [eauto|congruence].
Qed.

Lemma jidx_str_ub k j : jfind k j <> None -> jidx_str k j <> UB.
Proof. intros H. destruct (jidx_has H) as (v & E & _). unfold jidx_str. rewrite E. simpl. apply jget_str_ub. Qed.
Lemma jidx_int_ub k j : no_reals j -> jfind k j <> None -> jidx_int k j <> UB.
Proof.
  intros R H. destruct (jidx_has H) as (v & E & F). unfold jidx_int. rewrite E. simpl.
  apply jget_int_ub. eapply no_reals_find; eauto.
Qed.
Lemma jfind_int_ub k d j : no_reals j -> jfind_int k d j <> UB.
Proof.
  intros R. unfold jfind_int. destruct (jfind k j) eqn:F; [|discriminate].
  apply jget_int_ub. eapply no_reals_find; eauto.
Qed.

Lemma v2_no_ub j : integral_fields j ->
  has_keys ["dtype"; "shape"; "chunks"; "fill_value"; "compressor"]%string j ->
  (forall co, jfind "compressor" j = Some co -> co <> JNull ->
     has_keys ["id"%string] co /\
     (forall id c, jfind "id" co = Some (JStr id) -> sfind id zarr_to_compressor = Some c ->
        has_keys (zarr_codec_keys c) co)) ->
  from_json_v2 j <> UB.
Proof.
  intros IF HK HC. unfold from_json_v2.
  repeat (apply Forall_cons_iff in HK; destruct HK as [? HK]).
  destruct (jidx_has H) as (v1 & E1 & F1). destruct (jidx_has H0) as (v2 & E2 & F2).
  destruct (jidx_has H1) as (v3 & E3 & F3). destruct (jidx_has H2) as (v4 & E4 & F4).
  destruct (jidx_has H3) as (v5 & E5 & F5). clear H H0 H1 H2 H3.
  apply bind_ub.
  { unfold check_json.
    repeat match goal with |- (if ?b then _ else _) <> UB => destruct b; [discriminate|] end.
    discriminate. }
  intros _ _. rewrite E1, E2, E3, E4, E5. cbn [bind]. no_ub.
  - apply jshape_ub. eapply IF; [|exact F2]. discriminate.
  - apply jshape_ub. eapply IF; [|exact F3]. discriminate.
  - dfind; no_ub.
  - destruct (jis_null v5) eqn:N; [discriminate|].
    destruct (HC v5 F5) as [K _]; [intros ->; discriminate|]. apply Forall_inv in K. now apply jidx_str_ub.
  - assert (NR : no_reals v5) by (eapply IF; [|exact F5]; discriminate).
    match goal with |- read_zarr_options ?c _ _ <> UB =>
      assert (HH : c = C_raw \/ (has_keys ["id"%string] v5 /\ has_keys (zarr_codec_keys c) v5)) end.
    { destruct (jis_null v5) eqn:N.
      - left. match goal with A : or_runtime (sat ?i _) = Ok ?c, B : Ok _ = Ok ?i |- _ =>
          inversion B; subst; simpl in A; now inversion A end.
      - right. destruct (HC v5 F5) as [K1 K2]; [intros ->; discriminate|]. split; [assumption|].
        match goal with A : or_runtime (sat ?i _) = Ok ?c, B : jidx_str "id" v5 = Ok ?i |- _ =>
          apply (K2 i c);
          [ unfold jidx_str in B; destruct (jidx_has (Forall_inv K1)) as (w & W1 & W2);
            rewrite W1 in B; simpl in B; destruct w; try discriminate; inversion B; subst; exact W2
          | unfold sat in A; destruct (sfind i zarr_to_compressor); [now inversion A|discriminate] ] end. }
    destruct HH as [->|[K1 K2]]; [discriminate|].
    apply Forall_inv in K1.
    match goal with |- read_zarr_options ?c _ _ <> UB => destruct c end; simpl in K2;
      repeat (apply Forall_cons_iff in K2; destruct K2 as [? K2]);
      cbn [read_zarr_options]; try discriminate;
      repeat (apply bind_ub; [first [now apply jidx_str_ub | now apply jidx_int_ub | now apply jfind_int_ub]|intros ? _]);
      discriminate.
Qed.

Lemma n5_no_ub j : integral_fields j ->
  has_keys ["dataType"; "dimensions"; "blockSize"]%string j ->
  (forall co ty c, jfind "compression" j = Some co -> jfind "type" co = Some (JStr ty) ->
     sfind ty n5_to_compressor = Some c -> has_keys (n5_codec_keys c) co) ->
  from_json_n5 j <> UB.
Proof.
  intros IF HK HC. unfold from_json_n5.
  repeat (apply Forall_cons_iff in HK; destruct HK as [? HK]).
  destruct (jidx_has H) as (v1 & E1 & F1). destruct (jidx_has H0) as (v2 & E2 & F2).
  destruct (jidx_has H1) as (v3 & E3 & F3). clear H H0 H1.
  rewrite E1, E2, E3. cbn [bind]. no_ub.
  - apply jshape_rev_ub. eapply IF; [|exact F2]. discriminate.
  - apply jshape_rev_ub. eapply IF; [|exact F3]. discriminate.
  - destruct (jfind "compression" j) as [co|] eqn:FC.
    + assert (NR : no_reals co) by (eapply IF; [|exact FC]; discriminate).
      apply bind_ub; [dfind; no_ub|]. intros ty T. apply bind_ub; [no_ub|].
      intros c C. apply bind_ub; [|discriminate].
      assert (K : has_keys (n5_codec_keys c) co).
      { destruct (jfind "type" co) as [w|] eqn:FT; [|discriminate].
        destruct w; try discriminate. inversion T; subst.
        eapply HC; [reflexivity|exact FT|].
        unfold sat in C. destruct (sfind ty n5_to_compressor); [now inversion C|discriminate]. }
      destruct c; simpl in K; repeat (apply Forall_cons_iff in K; destruct K as [? K]);
        cbn [read_n5_options]; try discriminate;
        repeat (apply bind_ub; [first [now apply jidx_str_ub | now apply jidx_int_ub | now apply jfind_int_ub]|intros ? _]);
        discriminate.
    + apply bind_ub; [dfind; no_ub|]. intros ty T. no_ub.
Qed.

(** * Statements of the properties *)

Lemma v2_created dn sh ch cn o fill delim enc m j cfg :
  options_ok o ->
  create_metadata dn sh ch true cn o fill delim 2 enc [] = Ok m ->
  to_json m = Ok j -> init_compressor (md_comp m) (md_opts m) = Ok cfg ->
  exists m' cfg',
    from_json (reparse j) true = Ok m' /\ md_zarr m' = true /\ md_format m' = 2%Z /\
    md_shape m' = sh /\ md_chunks m' = ch /\ md_shard m' = [] /\
    sfind dn n5_to_dtype = Some (md_dtype m') /\
    md_fill m' = fill /\ md_delim m' = delim /\
    sfind cn string_to_compressor = Some (md_comp m') /\
    init_compressor (md_comp m') (md_opts m') = Ok cfg' /\ same_codec cfg cfg'.
Proof.
  intros OK C T I. apply create_fields in C.
  destruct C as (C1 & C2 & C3 & C4 & C5 & C6 & C7 & C8 & C9 & C10 & C11 & C12 & C13).
  assert (OK' : options_ok (md_opts m)) by (rewrite C7; now apply options_ok_default).
  destruct (@v2_back m j cfg) as (m' & cfg' & F & SA & A1 & A2 & A3 & A4 & A7 & A5 & A6); auto.
  { now rewrite C4, C5. }
  destruct SA as [S1 S2 S3 S4].
  exists m', cfg'. rewrite A7 in *. rewrite S1, S2, S3, S4, A3, A4. repeat split; auto.
Qed.

Lemma n5_created dn sh ch cn o fill delim fmt enc m j cfg :
  options_ok o ->
  create_metadata dn sh ch false cn o fill delim fmt enc [] = Ok m ->
  to_json m = Ok j -> init_compressor (md_comp m) (md_opts m) = Ok cfg ->
  exists m' cfg',
    from_json (reparse j) false = Ok m' /\ md_zarr m' = false /\
    md_shape m' = sh /\ md_chunks m' = ch /\ md_shard m' = [] /\
    sfind dn n5_to_dtype = Some (md_dtype m') /\
    (fill = DZero false -> md_fill m' = fill) /\
    sfind cn string_to_compressor = Some (md_comp m') /\
    init_compressor (md_comp m') (md_opts m') = Ok cfg' /\
    ((forall l, cfg <> Cfg_zlib l true) -> cfg' = cfg).
Proof.
  intros OK C T I. apply create_fields in C.
  destruct C as (C1 & C2 & C3 & C4 & C5 & C6 & C7 & C8 & C9 & C10 & C11 & C12 & C13).
  assert (OK' : options_ok (md_opts m)) by (rewrite C7; now apply options_ok_default).
  destruct (@n5_back m j cfg) as (m' & cfg' & F & SA & A1 & A2 & A5 & A3 & A4); auto.
  { now rewrite C4, C5. }
  destruct SA as [S1 S2 S3 S4].
  exists m', cfg'. rewrite A5 in *. rewrite S1, S2, S3, S4, A2. repeat split; auto.
  intros NZ. destruct cfg as [| | l []| | | |]; auto. now elim (NZ l).
Qed.

Lemma v3_created dn sh ch cn o fill delim enc shard m j cfg e :
  options_ok o -> dbl_ok fill ->
  create_metadata dn sh ch true cn o fill delim 3 enc shard = Ok m ->
  to_json m = Ok j -> init_compressor (md_comp m) (md_opts m) = Ok cfg ->
  element_fill (md_dtype m) fill = Ok e ->
  exists m' cfg',
    from_json (reparse j) true = Ok m' /\ md_zarr m' = true /\ md_format m' = 3%Z /\
    md_shape m' = sh /\ md_chunks m' = ch /\ md_shard m' = shard /\
    sfind dn n5_to_dtype = Some (md_dtype m') /\
    element_fill (md_dtype m') (md_fill m') = Ok e /\
    (~ integer_dtype (md_dtype m') -> md_fill m' = fill) /\
    md_delim m' = delim /\ md_enc m' = enc /\
    sfind cn string_to_compressor = Some (md_comp m') /\
    init_compressor (md_comp m') (md_opts m') = Ok cfg' /\
    (match cfg with
     | Cfg_zlib _ u => u = false
     | Cfg_blosc _ s _ _ _ => s = 0%Z \/ s = 1%Z \/ s = 2%Z
     | _ => True
     end -> same_codec cfg cfg').
Proof.
  intros OK FO C T I EF. apply create_fields in C.
  destruct C as (C1 & C2 & C3 & C4 & C5 & C6 & C7 & C8 & C9 & C10 & C11 & C12 & C13).
  assert (OK' : options_ok (md_opts m)) by (rewrite C7; now apply options_ok_default).
  rewrite <- C8 in FO, EF.
  destruct (@v3_back m j cfg e) as (m' & F & SA & A1 & A2 & A3 & A4 & A5 & A6 & A8 & A7); auto.
  { now rewrite C4, C5. }
  destruct SA as [S1 S2 S3 S4].
  exists m', (v3_view cfg). rewrite S4, A8 in *. rewrite S1, S2, S3, A5, A6. repeat split; auto.
  - intros ND. rewrite A4 by assumption. assumption.
  - destruct cfg; simpl; auto.
    + intros [->|[->| ->]]; auto.
    + intros ->. reflexivity.
Qed.

Lemma names_exist :
  (forall d, exists s, dtype_to_zarr d = Some s) /\
  (forall d, (exists s, dtype_to_n5 d = Some s) <-> ~ In d [DT_complex64; DT_complex128; DT_complex256]) /\
  (forall c, (exists s, compressor_to_zarr c = Some s) <-> c <> C_xz) /\
  (forall c, exists s, compressor_to_n5 c = Some s).
Proof.
  repeat split.
  - intros []; eexists; reflexivity.
  - intros [s E] [<-|[<-|[<-|[]]]]; discriminate.
  - intros H. destruct d; try (eexists; reflexivity); exfalso; apply H; simpl; auto.
  - intros [s E] ->. discriminate.
  - intros H. destruct c; try (eexists; reflexivity). congruence.
  - intros []; eexists; reflexivity.
Qed.

Lemma names_distinct d d' s :
  (dtype_to_zarr d = Some s -> dtype_to_zarr d' = Some s -> d = d') /\
  (dtype_to_n5 d = Some s -> dtype_to_n5 d' = Some s -> d = d').
Proof.
  split; intros A B.
  - apply dtype_zarr_iff in A, B. congruence.
  - apply dtype_n5_iff in A, B. congruence.
Qed.

Lemma create_accepts dn sh ch z cn o fill delim fmt enc shard :
  Forall (fun c => 0 < c) ch ->
  create_metadata dn sh ch z cn o fill delim fmt enc shard <> UB /\
  ((exists m, create_metadata dn sh ch z cn o fill delim fmt enc shard = Ok m) <->
   (sfind dn n5_to_dtype <> None /\ sfind cn string_to_compressor <> None /\
    length sh = length ch /\
    (shard = [] \/ (z = true /\ fmt = 3%Z /\ shards_of_chunks shard ch)))).
Proof.
  intros P. split.
  - unfold create_metadata. no_ub; [|apply check_shapes_ub].
    destruct shard as [|s r]; [discriminate|]. destruct (negb _); [discriminate|].
    destruct (lenN (s :: r) =? lenN ch) eqn:L; cbn [negb]; [|discriminate].
    apply check_shard_iff; [unfold lenN in L; lia|assumption].
  - split.
    + intros [m C]. apply create_fields in C.
      destruct C as (C1 & C2 & C3 & C4 & C5 & C6 & C7 & C8 & C9 & C10 & C11 & C12 & C13).
      rewrite C3, C6. repeat split; try discriminate; [unfold lenN in C12; lia|].
      destruct shard as [|s r]; [now left|right].
      destruct C13 as (-> & -> & L & K); [discriminate|]. repeat split; auto.
      apply check_shard_ok; [unfold lenN in L; lia|assumption].
    + intros (D & K & L & S). unfold create_metadata, sat.
      destruct (sfind dn n5_to_dtype); [|congruence].
      destruct (sfind cn string_to_compressor); [|congruence]. cbn [or_runtime bind].
      assert (R : match shard with
                  | [] => Ok tt
                  | _ => if negb (z && (fmt =? 3)%Z) then Throw ERuntime
                         else if negb (lenN shard =? lenN ch) then Throw ERuntime
                         else check_shard shard ch
                  end = Ok tt).
      { destruct S as [->|(-> & -> & S)]; [reflexivity|].
        destruct shard as [|s r]; [reflexivity|]. cbn [negb andb Z.eqb Pos.eqb].
        assert (LL : length (s :: r) = length ch) by (clear - S; unfold shards_of_chunks in S; induction S; simpl; lia).
        replace (lenN (s :: r) =? lenN ch) with true by (unfold lenN; lia). cbn [negb].
        now apply check_shard_iff. }
      rewrite R. cbn [bind]. unfold check_shapes. cbn [md_shape md_chunks].
      replace (lenN sh =? lenN ch) with true by (unfold lenN; lia). eauto.
Qed.

Lemma open_v3_no_ub j v : integral_fields j ->
  jfind "zarr_format" j = Some v -> jget_int v = Ok 3%Z -> from_json j true <> UB.
Proof.
  intros IF F G. unfold from_json. rewrite F, G. apply bind_ub; [|intros; apply check_shapes_ub].
  cbn [bind]. rewrite Z.eqb_refl. now apply v3_no_ub.
Qed.

Lemma open_v2_no_ub j : integral_fields j ->
  has_keys ["dtype"; "shape"; "chunks"; "fill_value"; "compressor"]%string j ->
  (forall co, jfind "compressor" j = Some co -> co <> JNull ->
     has_keys ["id"%string] co /\
     (forall id c, jfind "id" co = Some (JStr id) -> sfind id zarr_to_compressor = Some c ->
        has_keys (zarr_codec_keys c) co)) ->
  from_json j true <> UB.
Proof.
  intros IF HK HC. unfold from_json. apply bind_ub; [|intros; apply check_shapes_ub].
  assert (V2 := v2_no_ub IF HK HC).
  destruct (jfind "zarr_format" j) as [v|] eqn:F; [|assumption].
  apply bind_ub.
  - apply jget_int_ub. eapply IF; [|exact F]. discriminate.
  - intros f _. destruct (f =? 3)%Z; [now apply v3_no_ub|assumption].
Qed.

Lemma open_n5_no_ub j : integral_fields j ->
  has_keys ["dataType"; "dimensions"; "blockSize"]%string j ->
  (forall co ty c, jfind "compression" j = Some co -> jfind "type" co = Some (JStr ty) ->
     sfind ty n5_to_compressor = Some c -> has_keys (n5_codec_keys c) co) ->
  from_json j false <> UB.
Proof.
  intros IF HK HC. unfold from_json. apply bind_ub; [|intros; apply check_shapes_ub].
  now apply n5_no_ub.
Qed.

Lemma open_dimensions j z m : from_json j z = Ok m -> length (md_shape m) = length (md_chunks m).
Proof.
  unfold from_json. intros H. binds H. unfold check_shapes in H.
  destruct (lenN (md_shape a) =? lenN (md_chunks a)) eqn:L; [|discriminate].
  inversion H; subst. unfold lenN in L. lia.
Qed.
