(** Documents of other programs, and the documents of this library as others read them. *)
From Coq Require Import ZArith String Lia List.
From Verif Require Import M_Base M_Double M_Json M_Mode M_Key M_Blocking M_Metadata M_Fs M_Attributes M_Container
  S_Metadata S_Container S_Layout S_Interop S_Document S_Described P_Base P_Metadata P_Container.
Import ListNotations.
Local Open Scope list_scope.
Local Open Scope N_scope.
Local Notation length := List.length.
Set Implicit Arguments.

(** * Parts *)

Lemma lookup_jlookup k l : lookup k l = jlookup k l.
Proof. induction l as [|[k' v] l IH]; cbn; [reflexivity|]. now rewrite IH. Qed.
Lemma lookup_sfind V k (l : list (string * V)) : lookup k l = sfind k l.
Proof. induction l as [|[k' v] l IH]; cbn; [reflexivity|]. now rewrite IH. Qed.
Lemma member_find k j : member k j = jfind k j.
Proof. destruct j; cbn; auto using lookup_jlookup. Qed.

Lemma text_find k j s : text (member k j) = Some s -> jfind k j = Some (JStr s).
Proof. rewrite member_find. destruct (jfind k j) as [[]|]; cbn; congruence. Qed.
Lemma find_idx k j v : jfind k j = Some v -> jidx k j = Ok v.
Proof. destruct j; cbn; try discriminate. now intros ->. Qed.
Lemma find_at k j v : jfind k j = Some v -> jat k j = Ok v.
Proof. destruct j; cbn; try discriminate. now intros ->. Qed.

Lemma naturals_shape l s : naturals l = Some s -> jshape_list l = Ok s.
Proof.
  revert s. induction l as [|x l IH]; intros s H; [injection H as <-; reflexivity|].
  cbn [naturals] in H. destruct (integer (Some x)) as [z|] eqn:E; [|discriminate H].
  destruct (naturals l) as [ns|]; [|discriminate H]. destruct ((0 <=? z) && (z <? 2 ^ 64))%Z eqn:Hz; [|discriminate H].
  injection H as <-. cbn [jshape_list]. rewrite (IH ns eq_refl). apply Bool.andb_true_iff in Hz. destruct Hz as [H1 H2].
  apply Z.leb_le in H1. apply Z.ltb_lt in H2.
  destruct x; cbn in E; try discriminate E; injection E as <-; cbn [jget_size bind].
  - rewrite Z.mod_small by lia. reflexivity.
  - now rewrite N2Z.id.
Qed.
Lemma naturals_app a b : naturals (a ++ b) =
  match naturals a, naturals b with Some x, Some y => Some (x ++ y) | _, _ => None end.
Proof.
  induction a as [|x a IH]; cbn [naturals app]; [now destruct (naturals b)|]. rewrite IH.
  destruct (integer (Some x)) as [z|]; [|reflexivity]. destruct (naturals a); [|reflexivity].
  destruct (naturals b); [|now destruct (_ && _)%bool]. now destruct (_ && _)%bool.
Qed.
Lemma naturals_rev l s : naturals l = Some s -> naturals (rev l) = Some (rev s).
Proof.
  revert s. induction l as [|x l IH]; intros s H; [injection H as <-; reflexivity|].
  change (x :: l) with ([x] ++ l) in H. rewrite naturals_app in H. destruct (naturals [x]) as [y|] eqn:E; [|discriminate H].
  destruct (naturals l) as [ns|] eqn:El; [|discriminate H]. injection H as <-. cbn [rev].
  rewrite naturals_app, (IH ns eq_refl), E, rev_app_distr. f_equal. f_equal.
  cbn [naturals] in E. destruct (integer (Some x)); [|discriminate E]. destruct (_ && _)%bool; [|discriminate E].
  now injection E as <-.
Qed.
Lemma extents_shape o s : extents o = Some s -> exists j, o = Some j /\ jshape j = Ok s /\ jshape_rev j = Ok (rev s).
Proof.
  destruct o as [[]|]; cbn [extents]; try discriminate. intros H. eexists. split; [reflexivity|].
  split; [now apply naturals_shape|]. apply naturals_shape. now apply naturals_rev.
Qed.
Lemma extents_find k (j : json) s : extents (member k j) = Some s ->
  exists v, jfind k j = Some v /\ jshape v = Ok s /\ jshape_rev v = Ok (rev s).
Proof. rewrite member_find. intros H. destruct (extents_shape H) as (v & E & H1 & H2). eauto. Qed.

Lemma same_rank_len a b : same_rank a b = true -> (lenN a =? lenN b) = true.
Proof. unfold same_rank. intros H. apply Nat.eqb_eq in H. unfold lenN. rewrite H. apply N.eqb_refl. Qed.

(** Numbers. *)
Lemma pstrip_spec p : pstrip p = (odd_part p, twos p).
Proof. induction p as [p _|p IH|]; cbn [pstrip odd_part twos]; [reflexivity| |reflexivity]. rewrite IH. cbn [fst snd]. f_equal. lia. Qed.
Lemma round_real neg p : (Zpos p < 2 ^ 53)%Z -> round_pos neg p = DFin neg (odd_part p) (twos p).
Proof.
  intros H. unfold round_pos.
  assert (L : (Z.log2 (Zpos p) < 53)%Z) by (apply Z.log2_lt_pow2; lia).
  replace (Z.max 0 (Z.log2 (Zpos p) + 1 - 53)) with 0%Z by lia. rewrite Z.pow_0_r, Z.div_1_r, Z.mod_1_r.
  cbn [Z.mul Z.ltb Z.eqb Z.compare orb andb]. rewrite pstrip_spec. cbn [fst snd]. f_equal. lia.
Qed.
Lemma of_small z : (Z.abs z < 2 ^ 53)%Z -> dbl_of_Z z = real_of z.
Proof. intros H. destruct z as [|p|p]; cbn [dbl_of_Z real_of]; [reflexivity| |]; apply round_real; lia. Qed.
Lemma odd_twos p : Zpos p = (Zpos (odd_part p) * 2 ^ twos p)%Z /\ (0 <= twos p)%Z.
Proof. pose proof (pstrip_ok p) as H. rewrite pstrip_spec in H. exact H. Qed.
Lemma trunc_real z : dbl_trunc (real_of z) = Some z.
Proof.
  destruct z as [|p|p]; cbn [real_of dbl_trunc]; [reflexivity| |]; destruct (odd_twos p) as [E H];
    (replace (0 <=? twos p)%Z with true by (symmetry; apply Z.leb_le; exact H)); rewrite <- E; reflexivity.
Qed.
Lemma trunc_whole x z : whole_of x = Some z -> dbl_trunc x = Some z.
Proof.
  destruct x as [| |s|s m e]; cbn [whole_of dbl_trunc]; try discriminate; auto.
  destruct (0 <=? e)%Z; [|discriminate]. intros H. injection H as <-. reflexivity.
Qed.

(** What a number of a document says about the double that is kept for it. *)
Definition fill_says (f : fill) (x : dbl) : Prop :=
  match f with NoFill => True | WholeFill z => dbl_trunc x = Some z | RealFill y => x = y end.
Lemma fill_read k o f n x : fill_number k o = Some f -> small_fill f ->
  exists v, o = Some v /\ (fill_of_json n v = Ok x -> fill_says f x).
Proof.
  intros H S. destruct o as [v|]; [|now destruct k]. exists v. split; [reflexivity|]. intros E.
  assert (I : forall z, integer (Some v) = Some z -> (Z.abs z < 2 ^ 53)%Z -> x = real_of z).
  { intros z Hz Hs. destruct v; cbn in Hz; try discriminate Hz; injection Hz as <-; cbn in E; injection E as <-; now apply of_small. }
  assert (W : forall k', k' <> Real -> fill_number k' (Some v) = Some f -> fill_says f x).
  { clear H k. intros k Hk H.
    assert (H' : match v with JReal y => match whole_of y with Some z => Some (WholeFill z) | None => None end
                 | _ => match integer (Some v) with Some z => Some (WholeFill z) | None => None end end = Some f).
    { destruct k; [exact H|exact H|now elim Hk]. }
    destruct (integer (Some v)) as [z|] eqn:Ez.
    - assert (f = WholeFill z) as -> by (destruct v; cbn in Ez; try discriminate Ez; congruence).
      cbn [small_fill] in S. rewrite (I z eq_refl S). cbn [fill_says]. apply trunc_real.
    - destruct v; cbn in Ez, H'; try discriminate H'; try discriminate Ez. destruct (whole_of x0) as [z|] eqn:Ew; [|discriminate H'].
      injection H' as <-. cbn in E. injection E as <-. now apply trunc_whole. }
  destruct k; [now apply (W Signed)|now apply (W Unsigned)|].
  destruct v as [| |z|n0|y|s|l|l]; cbn [fill_number] in H; try (cbn in H; discriminate H).
  - cbn [integer] in H. destruct (Z.abs z <? 2 ^ 53)%Z eqn:Hz; [|discriminate H]. injection H as <-. apply Z.ltb_lt in Hz.
    now apply I.
  - cbn [integer] in H. destruct (Z.abs (Z.of_N n0) <? 2 ^ 53)%Z eqn:Hz; [|discriminate H]. injection H as <-. apply Z.ltb_lt in Hz.
    now apply I.
  - injection H as <-. cbn in E. now injection E as <-.
  - cbn in E. repeat (match goal with H : context [String.eqb ?a ?b] |- _ => destruct (String.eqb a b) end);
      try discriminate H; injection H as <-; injection E as <-; reflexivity.
Qed.

Lemma fill_kind k o f : fill_number k o = Some f ->
  match f with NoFill => True | WholeFill _ => k <> Real | RealFill _ => k = Real end.
Proof.
  intros H. destruct k, o as [[]|]; cbn in H; try discriminate H;
    repeat (match type of H with context [match ?x with _ => _ end] => destruct x end); try discriminate H;
    injection H as <-; try reflexivity; discriminate.
Qed.

(** * Documents and metadata *)

Record meant (a : document) (m : metadata) : Prop := {
  me_shape : md_shape m = do_shape a;
  me_chunks : md_chunks m = do_chunks a;
  me_elem : element_of (md_dtype m) = Some (do_elem a);
  me_fill : fill_says (do_fill a) (md_fill m);
  me_kind : match do_fill a with
            | NoFill => True | WholeFill _ => el_kind (do_elem a) <> Real | RealFill _ => el_kind (do_elem a) = Real
            end;
  me_stream : forall c, init_compressor (md_comp m) (md_opts m) = Ok c -> stream_of c = do_stream a;
  me_layout : match do_layout a with
              | Zarr2 _ | Zarr3 _ _ => md_zarr m = true /\ md_shard m = []
              | Zarr3Sharded _ _ s => md_zarr m = true /\ md_shard m = s
              | N5 => md_zarr m = false /\ md_shard m = []
              end
}.

Lemma sat_Ok V k (l : list (string * V)) v : sat k l = Ok v -> sfind k l = Some v.
Proof. unfold sat. destruct (sfind k l); congruence. Qed.
Lemma or_runtime_Ok A (x : outcome A) v : or_runtime x = Ok v -> x = Ok v.
Proof. destruct x as [y|[]|]; cbn; congruence. Qed.

(** [eqcase H]: cases over the comparisons of a look-up in a table. *)
Ltac eqcase H :=
  repeat (match type of H with context [String.eqb ?a ?b] =>
    let E := fresh "Eq" in destruct (String.eqb a b) eqn:E; [apply String.eqb_eq in E; subst|clear E] end).

Lemma zarr_stream id s c co o cfg :
  lookup id [("zlib", Zlib); ("gzip", Gzip); ("bz2", Bzip2); ("lzma", Xz); ("lz4", Lz4); ("blosc", Blosc); ("zstd", Zstd)]%string = Some s ->
  sfind id zarr_to_compressor = Some c -> jidx_str "id" co = Ok id -> read_zarr_options c co [] = Ok o ->
  init_compressor c o = Ok cfg -> stream_of cfg = s.
Proof.
  intros H Hc Hi Ho E. cbn [lookup] in H. eqcase H; try discriminate H; injection H as <-; cbn in Hc; try discriminate Hc; injection Hc as <-;
    cbn [read_zarr_options] in Ho;
    repeat (apply bind_ok in Ho; let x := fresh "x" in let Hx := fresh "Hx" in destruct Ho as (x & Hx & Ho));
    injection Ho as <-; cbn in E.
  - rewrite Hi in Hx0. injection Hx0 as <-. cbn in E. injection E as <-. reflexivity.
  - rewrite Hi in Hx0. injection Hx0 as <-. cbn in E. injection E as <-. reflexivity.
  - injection E as <-. reflexivity.
  - injection E as <-. reflexivity.
  - injection E as <-. reflexivity.
  - injection E as <-. reflexivity.
Qed.

Lemma zarr_elem s e d : type_string s = Some e -> el_big e = false -> sfind s zarr_to_dtype = Some d -> element_of d = Some e.
Proof.
  intros H Hb Hd. cbn [sfind zarr_to_dtype] in Hd.
  eqcase Hd; try discriminate Hd; injection Hd as <-; cbn in H |- *; try discriminate H; try congruence; exact H.
Qed.
Lemma name_elem s e d : type_name s = Some e -> sfind s n5_to_dtype = Some d -> element_of d = Some e.
Proof.
  intros H Hd. cbn [sfind n5_to_dtype] in Hd.
  eqcase Hd; try discriminate Hd; injection Hd as <-; cbn in H |- *; congruence.
Qed.

(** Undo a match that yields a value. *)
Ltac inv H :=
  repeat (match type of H with
  | (match ?x with _ => _ end) = Some _ => let E := fresh "E" in destruct x eqn:E; try discriminate H
  | bind ?x _ = Ok _ => apply bind_ok in H; let a := fresh "a" in let E := fresh "E" in destruct H as (a & E & H)
  end).


Lemma meant_v2 j a m : read_v2 j = Some a -> el_big (do_elem a) = false -> small_fill (do_fill a) ->
  from_json j true = Ok m -> meant a m /\ exists sep, do_layout a = Zarr2 sep /\
    match jfind "dimension_separator" j with Some v => jget_str v = Ok sep | None => sep = "."%string end.
Proof.
  intros H Hb Hf Hm. unfold read_v2 in H. inv H. injection H as <-. cbn [do_elem do_fill do_shape do_chunks do_layout do_stream] in *.
  rename s into order, l into sh, l0 into ch, s0 into dt, s1 into sep, s2 into st.
  apply Bool.andb_true_iff in E9. destruct E9 as [E9 RK]. apply Bool.andb_true_iff in E9. destruct E9 as [FM OC].
  apply Z.eqb_eq in FM. subst z. rewrite member_find in E.
  assert (exists v, jfind "zarr_format" j = Some v /\ jget_int v = Ok 2%Z) as (v & Ev & Hv).
  { destruct (jfind "zarr_format" j) as [[]|]; cbn in E; try discriminate E; injection E as E; eexists; (split; [reflexivity|]);
      cbn [jget_int]; rewrite E; reflexivity. }
  unfold from_json in Hm. rewrite Ev in Hm. cbn [bind] in Hm. rewrite Hv in Hm. cbn [bind Z.eqb Pos.eqb] in Hm.
  apply bind_ok in Hm. destruct Hm as (m' & Hm & CS). unfold check_shapes in CS. destruct (_ =? _) in CS; [|discriminate CS].
  injection CS as ->.
  unfold from_json_v2 in Hm. apply bind_ok in Hm. destruct Hm as (u & _ & Hm).
  destruct (extents_find E2) as (vs & Fs & Ss & _). destruct (extents_find E3) as (vc & Fc & Sc & _).
  apply text_find in E4. rewrite (find_idx E4) in Hm. cbn [bind jget_str] in Hm.
  apply bind_ok in Hm. destruct Hm as (d & Hd & Hm). apply or_runtime_Ok, sat_Ok in Hd.
  rewrite (find_idx Fs) in Hm. cbn [bind] in Hm. rewrite Ss in Hm. cbn [bind] in Hm.
  rewrite (find_idx Fc) in Hm. cbn [bind] in Hm. rewrite Sc in Hm. cbn [bind] in Hm.
  apply bind_ok in Hm. destruct Hm as (fj & Hfj & Hm). apply bind_ok in Hm. destruct Hm as (x & Hx & Hm).
  apply bind_ok in Hm. destruct Hm as (dl & Hdl & Hm). apply bind_ok in Hm. destruct Hm as (co & Hco & Hm).
  apply bind_ok in Hm. destruct Hm as (id & Hid & Hm). apply bind_ok in Hm. destruct Hm as (c & Hc & Hm).
  apply or_runtime_Ok, sat_Ok in Hc. apply bind_ok in Hm. destruct Hm as (o & Ho & Hm). injection Hm as <-.
  split; [split; cbn [md_shape md_chunks md_dtype md_fill md_comp md_opts md_zarr md_shard do_shape do_chunks do_elem do_fill do_layout do_stream]|].
  - reflexivity.
  - reflexivity.
  - eapply zarr_elem; eauto.
  - rewrite member_find in E8. destruct (jfind "fill_value" j) as [v0|] eqn:Ef.
    2:{ destruct (el_kind e); discriminate E8. }
    rewrite (find_idx Ef) in Hfj. injection Hfj as <-.
    destruct v0; try (destruct (@fill_read _ _ _ DNan x E8 Hf) as (v1 & Ev1 & Hv1); injection Ev1 as <-; now apply Hv1).
    injection E8 as <-. exact Logic.I.
  - rewrite member_find in E8. destruct (jfind "fill_value" j) as [[]|]; try (injection E8 as <-; exact Logic.I); exact (@fill_kind _ _ _ E8).
  - intros cfg Hcfg. rewrite member_find in E6. destruct (jfind "compressor" j) as [co'|] eqn:Ec; [|discriminate E6].
    rewrite (find_idx Ec) in Hco. injection Hco as ->. destruct (jis_null co) eqn:En.
    + destruct co; try discriminate En. injection Hid as <-. cbn in Hc. injection Hc as <-. cbn in Ho. injection Ho as <-.
      cbn in Hcfg, E6. injection Hcfg as <-. injection E6 as <-. reflexivity.
    + assert (E6' : match text (member "id" co) with Some id => lookup id [("zlib", Zlib); ("gzip", Gzip); ("bz2", Bzip2); ("lzma", Xz);
                                      ("lz4", Lz4); ("blosc", Blosc); ("zstd", Zstd)]%string | None => None end = Some st)
        by (destruct co; [discriminate En|exact E6..]).
      destruct (text (member "id" co)) as [id'|] eqn:Ei; [|discriminate E6']. apply text_find in Ei.
      pose proof Hid as Hid'. unfold jidx_str in Hid. rewrite (find_idx Ei) in Hid. cbn in Hid. injection Hid as ->.
      eapply zarr_stream; eauto.
  - auto.
  - exists sep. split; [reflexivity|]. rewrite member_find in E5. destruct (jfind "dimension_separator" j) as [v0|]; cbn in E5.
    + destruct v0; try discriminate E5. destruct (_ || _)%bool in E5; [|discriminate E5]. cbn. congruence.
    + congruence.
Qed.

Lemma n5_option_stream n c co o cfg s :
  (if String.eqb n "gzip" then Some Gzip else
   lookup n [("raw", NoStream); ("bzip2", Bzip2); ("xz", Xz); ("lz4", Lz4); ("blosc", Blosc); ("zstd", Zstd)]%string) = Some s ->
  sfind n n5_to_compressor = Some c -> read_n5_options c co [] = Ok o -> init_compressor c o = Ok cfg -> stream_of cfg = s.
Proof.
  intros H Hc Ho E. cbn [lookup] in H. eqcase H; try discriminate H; injection H as <-; cbn in Hc; injection Hc as <-;
    cbn [read_n5_options] in Ho;
    repeat (apply bind_ok in Ho; let x := fresh "x" in let Hx := fresh "Hx" in destruct Ho as (x & Hx & Ho));
    injection Ho as <-; cbn in E; injection E as <-; reflexivity.
Qed.

Lemma meant_n5 j a m : read_n5 j = Some a -> do_stream a <> Zlib -> from_json j false = Ok m ->
  meant a m /\ do_layout a = N5.
Proof.
  intros H Hz Hm. unfold read_n5 in H. inv H. injection H as <-. cbn [do_elem do_fill do_shape do_chunks do_layout do_stream] in *.
  split; [|reflexivity].
  unfold from_json in Hm. apply bind_ok in Hm. destruct Hm as (m' & Hm & CS). unfold check_shapes in CS. destruct (_ =? _) in CS; [|discriminate CS].
  injection CS as ->. unfold from_json_n5 in Hm.
  destruct (extents_find E) as (vs & Fs & _ & Ss). destruct (extents_find E0) as (vc & Fc & _ & Sc).
  apply text_find in E1. rewrite (find_idx E1) in Hm. cbn [bind jget_str] in Hm.
  apply bind_ok in Hm. destruct Hm as (d & Hd & Hm). apply sat_Ok in Hd.
  rewrite (find_idx Fs) in Hm. cbn [bind] in Hm. rewrite Ss in Hm. cbn [bind] in Hm.
  rewrite (find_idx Fc) in Hm. cbn [bind] in Hm. rewrite Sc in Hm. cbn [bind] in Hm.
  apply bind_ok in Hm. destruct Hm as (co & Hco & Hm). injection Hm as <-.
  split; cbn [md_shape md_chunks md_dtype md_fill md_comp md_opts md_zarr md_shard do_shape do_chunks do_elem do_fill do_layout do_stream].
  - reflexivity.
  - reflexivity.
  - eapply name_elem; eauto.
  - destruct (el_kind e); reflexivity.
  - destruct (el_kind e); try reflexivity; discriminate.
  - intros cfg Hcfg. unfold n5_stream in E2. rewrite member_find in E2. destruct (jfind "compression" j) as [jo|].
    + destruct (text (member "type" jo)) as [n|] eqn:En; [|discriminate E2]. apply text_find in En. rewrite En in Hco. cbn [bind jget_str] in Hco.
      apply bind_ok in Hco. destruct Hco as (c & Hc & Hco). apply or_runtime_Ok, sat_Ok in Hc.
      apply bind_ok in Hco. destruct Hco as (o & Ho & Hco). injection Hco as <-. cbn [fst snd] in Hcfg.
      eapply n5_option_stream; eauto. destruct (String.eqb n "gzip"); [|exact E2].
      destruct (member "useZlib" jo) as [[|[]| | | | | |]|]; try discriminate E2; congruence.
    + destruct (text (member "compressionType" j)) as [n|] eqn:En; [|discriminate E2]. apply text_find in En. rewrite En in Hco. cbn [bind jget_str] in Hco.
      apply bind_ok in Hco. destruct Hco as (c & Hc & Hco). apply or_runtime_Ok, sat_Ok in Hc. injection Hco as <-. cbn [fst snd] in Hcfg.
      cbn [lookup] in E2. eqcase E2; try discriminate E2; injection E2 as <-; cbn in Hc; injection Hc as <-; cbn in Hcfg; injection Hcfg as <-; reflexivity.
  - auto.
Qed.

(** The codecs of Zarr v3. *)
Lemma bytes_codec_read w c b acc : bytes_order w c = Some b -> read_v3_codec acc c = Ok acc /\
  exists n, jat "name" c = Ok n /\ jeq_str n "sharding_indexed" = false.
Proof.
  unfold bytes_order. destruct (text (member "name" c)) as [n|] eqn:E; [|discriminate]. apply text_find in E.
  destruct (String.eqb n "bytes") eqn:En; [|discriminate]. intros _. unfold read_v3_codec. rewrite (find_at E). cbn [bind jget_str].
  rewrite En. split; [reflexivity|]. eexists. split; [reflexivity|]. apply String.eqb_eq in En. subst n. reflexivity.
Qed.
Lemma compression_read c s acc r : v3_stream c = Some s -> read_v3_codec acc c = Ok r -> snd acc = [] ->
  (forall cfg, init_compressor (fst r) (snd r) = Ok cfg -> stream_of cfg = s).
Proof.
  unfold v3_stream. destruct (text (member "name" c)) as [n|] eqn:E; [|discriminate]. apply text_find in E. intros H Hr Ha cfg Hc.
  unfold read_v3_codec in Hr. rewrite (find_at E) in Hr. cbn [bind jget_str] in Hr. cbn [lookup] in H.
  eqcase H; try discriminate H; injection H as <-; cbn [String.eqb Ascii.eqb Bool.eqb] in Hr;
    repeat (apply bind_ok in Hr; let x := fresh "x" in let Hx := fresh "Hx" in destruct Hr as (x & Hx & Hr));
    injection Hr as <-; rewrite Ha in Hc; cbn in Hc; injection Hc as <-; reflexivity.
Qed.
Lemma stream_name c s : v3_stream c = Some s -> exists n, jat "name" c = Ok n /\ jeq_str n "sharding_indexed" = false.
Proof.
  unfold v3_stream. destruct (text (member "name" c)) as [n|] eqn:E; [|discriminate]. apply text_find in E. intros H.
  exists (JStr n). split; [now apply find_at|]. cbn [jeq_str]. cbn [lookup] in H. eqcase H; try discriminate H; reflexivity.
Qed.
Lemma chain_read w v big s : v3_chain w (Some v) = Some (big, s) ->
  find_sharding (jelems v) = Ok None /\
  forall r, read_v3_codecs v [] = Ok r -> forall cfg, init_compressor (fst r) (snd r) = Ok cfg -> stream_of cfg = s.
Proof.
  destruct v as [| | | | | |l|]; cbn [v3_chain]; try discriminate. destruct l as [|b [|c [|]]]; try discriminate.
  - destruct (bytes_order w b) as [big'|] eqn:Eb; [|discriminate]. intros H. injection H as <- <-.
    destruct (bytes_codec_read (C_raw, []) Eb) as (R & n & N1 & N2). split.
    + cbn [jelems find_sharding]. rewrite N1. cbn [bind]. rewrite N2. reflexivity.
    + intros r Hr. unfold read_v3_codecs in Hr. cbn [jelems foldM] in Hr. unfold options in *. rewrite R in Hr. cbn in Hr. injection Hr as <-.
      intros cfg Hc. cbn in Hc. injection Hc as <-. reflexivity.
  - destruct (bytes_order w b) as [big'|] eqn:Eb; [|discriminate]. destruct (v3_stream c) as [s'|] eqn:Es; [|discriminate].
    intros H. injection H as <- <-. destruct (bytes_codec_read (C_raw, []) Eb) as (R & n & N1 & N2).
    destruct (stream_name Es) as (n2 & N3 & N4). split.
    + cbn [jelems find_sharding]. rewrite N1. cbn [bind]. rewrite N2, N3. cbn [bind]. rewrite N4. reflexivity.
    + intros r Hr. unfold read_v3_codecs in Hr. cbn [jelems foldM] in Hr. unfold options in *. rewrite R in Hr. cbn [bind foldM] in Hr.
      destruct (read_v3_codec (C_raw, []) c) as [r'| |] eqn:Er; cbn in Hr; try discriminate Hr. injection Hr as <-.
      eapply compression_read; eauto.
Qed.

Lemma sharding_read v cfg : sharding (Some v) = Some cfg -> find_sharding (jelems v) = Ok (Some cfg).
Proof.
  destruct v as [| | | | | |l|]; cbn [sharding]; try discriminate. destruct l as [|c [|]]; try discriminate.
  destruct (text (member "name" c)) as [n|] eqn:E; [|discriminate]. apply text_find in E.
  destruct (String.eqb n "sharding_indexed") eqn:En; [|discriminate]. rewrite member_find. intros H.
  cbn [jelems find_sharding]. rewrite (find_at E). cbn [bind jeq_str]. rewrite En, (find_at H). reflexivity.
Qed.

Lemma meant_v3 j a m : read_v3 j = Some a -> el_big (do_elem a) = false -> small_fill (do_fill a) ->
  from_json j true = Ok m -> meant a m /\ exists prefix sep, key_encoding (jfind "chunk_key_encoding" j) = Some (prefix, sep) /\
    (do_layout a = Zarr3 prefix sep \/ (do_layout a = Zarr3Sharded prefix sep (md_shard m) /\ length (md_shard m) = length (do_shape a))).
Proof.
  intros H Hb Hf Hm. unfold read_v3 in H.
  destruct (integer (member "zarr_format" j)) as [fmt|] eqn:E; [|discriminate H].
  destruct (text (member "node_type" j)) as [nt|] eqn:E0; [|discriminate H].
  destruct (text (member "data_type" j)) as [dt|] eqn:E1; [|discriminate H].
  destruct (extents (member "shape" j)) as [sh|] eqn:E2; [|discriminate H].
  destruct (regular_grid (member "chunk_grid" j)) as [outer|] eqn:E3; [|discriminate H].
  destruct (key_encoding (member "chunk_key_encoding" j)) as [[prefix sep]|] eqn:E4; [|discriminate H].
  destruct (no_transformers (member "storage_transformers" j)); [|discriminate H].
  destruct (type_name dt) as [e|] eqn:E5; [|discriminate H].
  destruct (fill_number (el_kind e) (member "fill_value" j)) as [f|] eqn:E6; [|discriminate H].
  destruct ((fmt =? 3)%Z && String.eqb nt "array" && same_rank sh outer)%bool eqn:E7; [|discriminate H].
  apply Bool.andb_true_iff in E7. destruct E7 as [E7 RK]. apply Bool.andb_true_iff in E7. destruct E7 as [FM NT].
  apply Z.eqb_eq in FM. subst fmt. rewrite member_find in E, E4.
  assert (exists v, jfind "zarr_format" j = Some v /\ jget_int v = Ok 3%Z) as (v & Ev & Hv).
  { destruct (jfind "zarr_format" j) as [[]|]; cbn in E; try discriminate E; injection E as E; eexists; (split; [reflexivity|]);
      cbn [jget_int]; rewrite E; reflexivity. }
  unfold from_json in Hm. rewrite Ev in Hm. cbn [bind] in Hm. rewrite Hv in Hm. cbn [bind Z.eqb Pos.eqb] in Hm.
  apply bind_ok in Hm. destruct Hm as (m' & Hm & CS). unfold check_shapes in CS. destruct (_ =? _) in CS; [|discriminate CS].
  injection CS as ->.
  unfold from_json_v3 in Hm. apply text_find in E0, E1. rewrite (find_at E0) in Hm. cbn [bind jeq_str] in Hm. rewrite NT in Hm. cbn [negb] in Hm.
  rewrite (find_at E1) in Hm. cbn [bind jget_str] in Hm. apply bind_ok in Hm. destruct Hm as (d & Hd & Hm). apply or_runtime_Ok, sat_Ok in Hd.
  destruct (extents_find E2) as (vs & Fs & Ss & _). rewrite (find_at Fs) in Hm. cbn [bind] in Hm. rewrite Ss in Hm. cbn [bind] in Hm.
  assert (exists g1 g2 g3, jat "chunk_grid" j = Ok g1 /\ jat "configuration" g1 = Ok g2 /\ jat "chunk_shape" g2 = Ok g3 /\ jshape g3 = Ok outer) as (g1 & g2 & g3 & G1 & G2 & G3 & G4).
  { rewrite member_find in E3. unfold regular_grid in E3. destruct (jfind "chunk_grid" j) as [g1|] eqn:EG; [|discriminate E3].
    destruct (text (member "name" g1)) as [nm|]; [|discriminate E3]. rewrite member_find in E3.
    destruct (jfind "configuration" g1) as [g2|] eqn:EG2; [|discriminate E3].
    destruct (String.eqb nm "regular"); [|discriminate E3]. destruct (extents_find E3) as (g3 & F3 & S3 & _).
    exists g1, g2, g3. repeat split; auto using find_at. }
  rewrite G1 in Hm. cbn [bind] in Hm. rewrite G2 in Hm. cbn [bind] in Hm. rewrite G3 in Hm. cbn [bind] in Hm. rewrite G4 in Hm. cbn [bind] in Hm.
  apply bind_ok in Hm. destruct Hm as (cke & Hcke & Hm). apply bind_ok in Hm. destruct Hm as (ej & Hej & Hm).
  apply bind_ok in Hm. destruct Hm as (enc & Henc & Hm). apply bind_ok in Hm. destruct Hm as (delim & Hdelim & Hm).
  apply bind_ok in Hm. destruct Hm as (fj & Hfj & Hm). apply bind_ok in Hm. destruct Hm as (x & Hx & Hm).
  apply bind_ok in Hm. destruct Hm as (codecs & Hcod & Hm). apply jat_find in Hcod, Hfj.
  assert (FS : small_fill f -> fill_says f x).
  { intros Sf. rewrite member_find, Hfj in E6. destruct (@fill_read _ _ _ (DZero false) x E6 Sf) as (v1 & Ev1 & Hv1).
    injection Ev1 as <-. now apply Hv1. }
  rewrite member_find, Hcod in H.
  destruct (sharding (Some codecs)) as [cfg|] eqn:ES.
  - rewrite (sharding_read ES) in Hm. cbn [bind] in Hm.
    destruct (extents (member "chunk_shape" cfg)) as [inner|] eqn:EI; [|discriminate H].
    destruct (v3_chain (el_width e) (member "codecs" cfg)) as [[big st]|] eqn:EC; [|discriminate H].
    destruct (same_rank sh inner && plain_index cfg)%bool; [|discriminate H]. injection H as <-.
    cbn [do_elem do_fill do_shape do_chunks do_layout do_stream el_big] in *. subst big.
    destruct (extents_find EI) as (vi & Fi & Si & _). rewrite (find_at Fi) in Hm. cbn [bind] in Hm. rewrite Si in Hm. cbn [bind] in Hm.
    rewrite member_find in EC. destruct (jfind "codecs" cfg) as [ic|] eqn:Eic; [|discriminate EC]. rewrite (find_at Eic) in Hm. cbn [bind] in Hm.
    apply bind_ok in Hm. destruct Hm as (co & Hco & Hm). injection Hm as <-.
    destruct (chain_read EC) as [_ CR]. split.
    + split; cbn [md_shape md_chunks md_dtype md_fill md_comp md_opts md_zarr md_shard do_shape do_chunks do_elem do_fill do_layout do_stream]; auto.
      * rewrite (name_elem E5 Hd). f_equal. clear -E5. unfold type_name in E5. cbn [lookup] in E5. eqcase E5; try discriminate E5; now injection E5 as <-.
      * exact (@fill_kind _ _ _ E6).
      * now apply CR.
    + exists prefix, sep. split; [exact E4|]. right. split; [reflexivity|]. cbn [md_shard]. symmetry. apply Nat.eqb_eq. exact RK.
  - destruct (v3_chain (el_width e) (Some codecs)) as [[big st]|] eqn:EC; [|discriminate H]. injection H as <-.
    cbn [do_elem do_fill do_shape do_chunks do_layout do_stream el_big] in *. subst big.
    destruct (chain_read EC) as [FN CR]. rewrite FN in Hm. cbn [bind] in Hm.
    apply bind_ok in Hm. destruct Hm as (co & Hco & Hm). injection Hm as <-. split.
    + split; cbn [md_shape md_chunks md_dtype md_fill md_comp md_opts md_zarr md_shard do_shape do_chunks do_elem do_fill do_layout do_stream]; auto.
      * rewrite (name_elem E5 Hd). f_equal. clear -E5. unfold type_name in E5. cbn [lookup] in E5. eqcase E5; try discriminate E5; now injection E5 as <-.
      * exact (@fill_kind _ _ _ E6).
      * now apply CR.
    + exists prefix, sep. split; [exact E4|]. left. reflexivity.
Qed.

(** * Opening *)

Lemma config_v3 t p j prefix sep : t (p ++ ["zarr.json"%string]) = Some (NDoc j) ->
  key_encoding (jfind "chunk_key_encoding" j) = Some (prefix, sep) ->
  exists enc, chunk_config t p = Ok (KeyArgs sep 3 enc) /\ String.eqb enc "default" = prefix.
Proof.
  intros T K. unfold chunk_config, fs_exists, parse_doc. rewrite T. cbn [bind].
  destruct (jfind "chunk_key_encoding" j) as [cke|]; [|discriminate K]. unfold key_encoding in K.
  destruct (text (member "name" cke)) as [n|] eqn:En; [|discriminate K]. apply text_find in En.
  assert (J : jvalue jget_str "name" "default"%string cke = Ok n).
  { destruct cke; cbn in En; try discriminate En. cbn. now rewrite En. }
  rewrite J. cbn [bind]. rewrite member_find in K.
  assert (S : forall d, separator d (match jfind "configuration" cke with Some cfg => member "separator" cfg | None => None end) = Some sep ->
    match jfind "configuration" cke with
    | Some cfg => match jfind "separator" cfg with Some v => jget_str v | None => Ok d end
    | None => Ok d end = Ok sep).
  { intros d Hd. destruct (jfind "configuration" cke) as [cfg|]; [|cbn in Hd; congruence]. rewrite member_find in Hd.
    destruct (jfind "separator" cfg) as [v|]; [|cbn in Hd; congruence]. destruct v; cbn in Hd; try discriminate Hd.
    destruct (_ || _)%bool in Hd; [|discriminate Hd]. cbn. congruence. }
  destruct (String.eqb n "default") eqn:Ed.
  - destruct (separator "/" _) as [s|] eqn:Es in K; [|discriminate K]. injection K as <- <-. apply String.eqb_eq in Ed. subst n.
    cbn [String.eqb Ascii.eqb Bool.eqb]. rewrite (S _ Es). cbn. eauto.
  - destruct (String.eqb n "v2") eqn:E2; [|discriminate K]. destruct (separator "." _) as [s|] eqn:Es in K; [|discriminate K].
    injection K as <- <-. rewrite (S _ Es). cbn. eauto.
Qed.

Lemma fill_made a d x e : element_of d = Some (do_elem a) ->
  match do_fill a with NoFill => True | WholeFill _ => el_kind (do_elem a) <> Real | RealFill _ => el_kind (do_elem a) = Real end ->
  fill_says (do_fill a) x -> element_fill d x = Ok e -> fill_fits (do_fill a) e.
Proof.
  intros He Hk Hs E. unfold element_fill in E. destruct (dtype_range d) as [[lo hi]|] eqn:R.
  - assert (K : el_kind (do_elem a) <> Real) by (destruct d; cbn in R, He; try discriminate R; injection He as <-; discriminate).
    apply bind_ok in E. destruct E as (z & Ez & E). injection E as <-. unfold dbl_to_int in Ez.
    destruct (do_fill a) as [|z'|y]; cbn [fill_says fill_fits] in *; [exact Logic.I| |contradiction].
    rewrite Hs in Ez. destruct (_ && _)%bool in Ez; [congruence|discriminate Ez].
  - injection E as <-.
    assert (K : el_kind (do_elem a) = Real) by (destruct d; cbn in R, He; try discriminate R; try discriminate He; injection He as <-; reflexivity).
    destruct (do_fill a) as [|z'|y]; cbn [fill_says fill_fits] in *; [exact Logic.I|contradiction|exact Hs].
Qed.

Lemma opened_v2_config t p j sep : t (p ++ ["zarr.json"%string]) = None -> t (p ++ [".zarray"%string]) = Some (NDoc j) ->
  match jfind "dimension_separator" j with Some v => jget_str v = Ok sep | None => sep = "."%string end ->
  chunk_config t p = Ok (KeyArgs sep 2 "default").
Proof.
  intros T1 T2 D. unfold chunk_config, fs_exists, parse_doc. rewrite T1, T2. cbn [bind].
  destruct (jfind "dimension_separator" j) as [v|]; [rewrite D|subst sep]; reflexivity.
Qed.

(** The make of a dataset object from metadata that is meant by a document. *)
Lemma made_fits h ka a m o : meant a m -> make_dataset h ka m = Ok o ->
  do_layout a = match md_shard m with
                | [] => layout_of (KeyConfig (md_zarr m) (ka_delim ka) (Z.to_N (ka_format ka)) (ka_enc ka))
                | s => sharded_layout (KeyConfig true (ka_delim ka) (Z.to_N (ka_format ka)) (ka_enc ka)) s
                end -> fits a o.
Proof.
  intros M E L. destruct M. unfold make_dataset in E. apply bind_ok in E. destruct E as (? & _ & E).
  apply bind_ok in E. destruct E as (f & Ef & E). apply bind_ok in E. destruct E as (c & Ec & E).
  assert (S : (if match md_dtype m with DT_complex64 | DT_complex128 | DT_complex256 => true | _ => false end then [] else md_shard m) = md_shard m)
    by (destruct (md_dtype m); cbn in me_elem0; try discriminate me_elem0; reflexivity).
  rewrite S in E. injection E as <-. split; cbn [op_shape op_chunks op_shard op_keys op_dtype op_fill op_codec]; auto.
  - rewrite L. destruct (md_shard m); reflexivity.
  - eapply fill_made; eauto.
Qed.

Theorem opened_fits t root key a o : read_node t (h_path root ++ key) = Some a -> open_dataset t root key = Ok o ->
  (do_layout a <> N5 -> is_zarr_group t (h_path root) = Ok true) ->
  el_big (do_elem a) = false -> small_fill (do_fill a) -> (do_layout a = N5 -> do_stream a <> Zlib) -> do_shape a <> [] ->
  fits a o.
Proof.
  intros R O Z B F NZ NE. unfold open_dataset in O. apply bind_ok in O. destruct O as (z & Hz & O).
  apply bind_ok in O. destruct O as (ka & Hka & O). unfold fs_open_dataset in O. cbn [h_path] in O.
  destruct (negb (fs_exists t (h_path root ++ key))); [discriminate O|]. apply bind_ok in O. destruct O as (m & Hm & O).
  set (p := h_path root ++ key) in *. unfold read_node in R. unfold read_dataset_metadata, metadata_doc, fs_exists in Hm.
  destruct (t (p ++ ["zarr.json"%string])) as [n1|] eqn:T1.
  - destruct n1 as [|j|]; try discriminate R. destruct (t (p ++ [".zarray"%string])) eqn:T2; [discriminate R|].
    destruct (t (p ++ ["attributes.json"%string])) eqn:T3; [discriminate R|].
    cbn [orb negb andb bind] in Hm. unfold parse_doc in Hm. rewrite T1 in Hm. cbn [bind] in Hm.
    destruct (meant_v3 R B F Hm) as (M & prefix & sep & K & L). rewrite Z in Hz by (destruct L as [-> |[-> _]]; discriminate).
    injection Hz as <-. destruct (config_v3 T1 K) as (enc & EK & EE). rewrite EK in Hka. injection Hka as <-.
    eapply made_fits; eauto. cbn [ka_delim ka_format ka_enc]. destruct L as [L|[L LL]].
    + rewrite L. pose proof (me_layout M) as ML. rewrite L in ML. destruct ML as [-> ->]. unfold layout_of. cbn. now rewrite EE.
    + rewrite L at 1. destruct (md_shard m) as [|s0 s]; [destruct (do_shape a); [now elim NE|discriminate LL]|].
      unfold sharded_layout. cbn. now rewrite EE.
  - destruct (t (p ++ [".zarray"%string])) as [n2|] eqn:T2.
    + destruct n2 as [|j|]; try discriminate R. destruct (t (p ++ ["attributes.json"%string])) eqn:T3; [discriminate R|].
      cbn [orb negb andb bind] in Hm. unfold parse_doc in Hm. rewrite T2 in Hm. cbn [bind] in Hm.
      destruct (meant_v2 R B F Hm) as (M & sep & L & D). rewrite Z in Hz by (rewrite L; discriminate).
      injection Hz as <-. rewrite (@opened_v2_config t p j sep T1 T2 D) in Hka. injection Hka as <-.
      eapply made_fits; eauto. pose proof (me_layout M) as ML. rewrite L in ML |- *. destruct ML as [-> ->]. reflexivity.
    + destruct (t (p ++ ["attributes.json"%string])) as [[|j|]|] eqn:T3; try discriminate R.
      cbn [orb negb andb bind] in Hm. unfold parse_doc in Hm. rewrite T3 in Hm. cbn [bind] in Hm.
      assert (L : do_layout a = N5) by (clear -R; unfold read_n5 in R; inv R; now injection R as <-).
      destruct (meant_n5 R (NZ L) Hm) as (M & _). eapply made_fits; eauto.
      pose proof (me_layout M) as ML. rewrite L in ML |- *. destruct ML as [-> ->]. reflexivity.
Qed.

(** * The documents of this library *)

Lemma naturals_uint s : Forall (fun n => n < 2 ^ 64) s -> naturals (map JUInt s) = Some s.
Proof.
  induction 1 as [|n s H _ IH]; cbn [naturals map]; [reflexivity|]. cbn [integer]. rewrite IH.
  assert ((0 <=? Z.of_N n) && (Z.of_N n <? 2 ^ 64) = true)%Z as ->
    by (apply Bool.andb_true_iff; split; [apply Z.leb_le; lia|apply Z.ltb_lt; change (2 ^ 64)%Z with (Z.of_N (2 ^ 64)); lia]).
  now rewrite N2Z.id.
Qed.
Lemma extents_of s : Forall (fun n => n < 2 ^ 64) s -> extents (Some (jof_shape s)) = Some s.
Proof. apply naturals_uint. Qed.

Lemma v2_stream_of c o j cfg : write_zarr_options c o = Ok j -> init_compressor c o = Ok cfg ->
  v2_stream (Some (reparse j)) = Some (stream_of cfg).
Proof.
  intros W I. destruct c; unfold write_zarr_options in W; cbn [compressor_to_zarr eat or_runtime bind] in W;
    unfold init_compressor in I; try discriminate W;
    repeat (apply bind_ok in W; let x := fresh "x" in let Hx := fresh "Hx" in destruct W as (x & Hx & W));
    injection W as <-;
    repeat (match goal with H : opt_int ?k ?o = Ok _ |- _ => rewrite H in I; clear H | H : opt_str ?k ?o = Ok _ |- _ => rewrite H in I; clear H
                          | H : opt_bool ?k ?o = Ok ?b |- _ => rewrite H in I; clear H end; cbn [bind] in I);
    try (apply bind_ok in I; destruct I as (? & _ & I));
    injection I as <-; try reflexivity.
  destruct x; reflexivity.
Qed.

Lemma v3_chain_of c o j cfg w : write_v3_codecs c o w = Ok j -> init_compressor c o = Ok cfg ->
  (forall l b, cfg = Cfg_zlib l b -> b = false) ->
  v3_chain w (Some (reparse j)) = Some (false, stream_of cfg).
Proof.
  intros W I Z. destruct c; unfold write_v3_codecs in W; unfold init_compressor in I; try discriminate W;
    repeat (apply bind_ok in W; let x := fresh "x" in let Hx := fresh "Hx" in destruct W as (x & Hx & W));
    injection W as <-;
    repeat (match goal with H : opt_int ?k ?o = Ok _ |- _ => rewrite H in I; clear H | H : opt_str ?k ?o = Ok _ |- _ => rewrite H in I; clear H
                          | H : opt_bool ?k ?o = Ok ?b |- _ => rewrite H in I; clear H end; cbn [bind] in I);
    repeat (apply bind_ok in I; let x := fresh "x" in destruct I as (x & _ & I));
    injection I as <-; try reflexivity.
  specialize (Z _ _ eq_refl). subst. reflexivity.
Qed.

Lemma n5_stream_of c o j cfg doc : write_n5_options c o = Ok j -> init_compressor c o = Ok cfg ->
  (forall l b, cfg = Cfg_zlib l b -> b = false) -> member "compression" doc = Some (reparse j) ->
  n5_stream doc = Some (stream_of cfg).
Proof.
  intros W I Z D. unfold n5_stream. rewrite D. clear D.
  destruct c; unfold write_n5_options in W; cbn [compressor_to_n5 eat or_runtime bind] in W;
    unfold init_compressor in I; try discriminate W;
    repeat (apply bind_ok in W; let x := fresh "x" in let Hx := fresh "Hx" in destruct W as (x & Hx & W));
    injection W as <-;
    repeat (match goal with H : opt_int ?k ?o = Ok _ |- _ => rewrite H in I; clear H | H : opt_str ?k ?o = Ok _ |- _ => rewrite H in I; clear H
                          | H : opt_bool ?k ?o = Ok ?b |- _ => rewrite H in I; clear H end; cbn [bind] in I);
    repeat (apply bind_ok in I; let x := fresh "x" in destruct I as (x & _ & I));
    injection I as <-; try reflexivity.
  specialize (Z _ _ eq_refl). subst. reflexivity.
Qed.

Lemma v2_fill_of d e x fe : element_of d = Some e -> element_fill d x = Ok fe ->
  (forall n, fe = FInt n -> whole_of x <> None) ->
  exists f, fill_number (el_kind e) (Some (reparse (fill_json x))) = Some f /\ fill_fits f fe.
Proof.
  intros De Ef W.
  assert (I : forall lo hi, dbl_to_int lo hi x = Ok (match fe with FInt n => n | _ => 0%Z end) -> (exists n, fe = FInt n) -> el_kind e <> Real ->
    exists f, fill_number (el_kind e) (Some (reparse (fill_json x))) = Some f /\ fill_fits f fe).
  { intros lo hi Hi (n & ->) K. specialize (W n eq_refl). unfold dbl_to_int in Hi.
    destruct (whole_of x) as [z|] eqn:Ew; [|contradiction]. rewrite (trunc_whole Ew) in Hi.
    destruct ((lo <=? z) && (z <=? hi))%Z; [|discriminate Hi]. injection Hi as ->.
    exists (WholeFill n). split; [|reflexivity].
    assert (reparse (fill_json x) = JReal x) as -> by (destruct x as [|[]| |]; try discriminate Ew; reflexivity).
    unfold fill_number. destruct (el_kind e); [now rewrite Ew|now rewrite Ew|contradiction]. }
  assert (R : el_kind e = Real -> fe = FReal x ->
    exists f, fill_number (el_kind e) (Some (reparse (fill_json x))) = Some f /\ fill_fits f fe).
  { intros -> ->. exists (RealFill x). split; [|reflexivity]. destruct x as [|[]| |]; reflexivity. }
  destruct d; try discriminate De; cbn [element_of] in De; injection De as <-; unfold element_fill in Ef; cbn [dtype_range] in Ef;
    try (apply bind_ok in Ef; destruct Ef as (z & Ez & Ef)); injection Ef as <-;
    try (eapply I; [exact Ez|now eexists|discriminate]); now apply R.
Qed.

Lemma v3_fill_of d e x fe v : element_of d = Some e -> element_fill d x = Ok fe -> fill_json_v3 d x = Ok v ->
  exists f, fill_number (el_kind e) (Some (reparse v)) = Some f /\ fill_fits f fe.
Proof.
  intros De Ef Ev.
  assert (R : el_kind e = Real -> fe = FReal x -> v = fill_json x ->
    exists f, fill_number (el_kind e) (Some (reparse v)) = Some f /\ fill_fits f fe).
  { intros -> -> ->. exists (RealFill x). split; [|reflexivity]. destruct x as [|[]| |]; reflexivity. }
  assert (I : forall n z, el_kind e <> Real -> fe = FInt n -> (v = JInt z \/ (v = JUInt (Z.to_N z) /\ 0 <= z)%Z) -> n = z ->
    exists f, fill_number (el_kind e) (Some (reparse v)) = Some f /\ fill_fits f fe).
  { intros n z K -> Hv ->. exists (WholeFill z). split; [|reflexivity].
    assert (integer (Some (reparse v)) = Some z) as Hi.
    { destruct Hv as [-> | [-> Hz]]; cbn [reparse].
      - destruct (0 <=? z)%Z eqn:Hz; cbn [integer]; [|reflexivity]. apply Z.leb_le in Hz. now rewrite Z2N.id.
      - cbn [integer]. now rewrite Z2N.id. }
    assert (exists w, (reparse v = JInt w \/ exists u, reparse v = JUInt u)) as (w & Hw).
    { exists z. destruct Hv as [-> | [-> Hz]]; cbn [reparse]; [destruct (0 <=? z)%Z|]; eauto. }
    destruct (el_kind e); [| |contradiction]; unfold fill_number; destruct Hw as [-> | (u & ->)] in Hi |- *; now rewrite Hi. }
  unfold fill_json_v3 in Ev.
  destruct d; try discriminate De; cbn [element_of] in De; injection De as <-; unfold element_fill in Ef; cbn [dtype_range] in Ef;
    try (apply bind_ok in Ef; destruct Ef as (z & Ez & Ef)); injection Ef as <-;
    try (assert (Ht : exists t, dbl_trunc x = Some t) by (unfold dbl_to_int in Ez; destruct (dbl_trunc x); [eauto|discriminate Ez]));
    try (assert (dbl_is_nan x || dbl_is_inf x = false) as N by (destruct Ht as (t & Ht); destruct x; try discriminate Ht; reflexivity);
         rewrite N in Ev; apply bind_ok in Ev; destruct Ev as (y & Ey & Ev); injection Ev as <-;
         assert (z = y) as Hzy by (unfold dbl_to_int in Ey, Ez; destruct Ht as (t & Ht); rewrite Ht in Ey, Ez;
           repeat match type of Ey with context[if ?b then _ else _] => destruct b end;
           repeat match type of Ez with context[if ?b then _ else _] => destruct b end; congruence);
         eapply I; [discriminate|reflexivity| |exact Hzy];
         first [now left | right; split; [reflexivity|]; unfold dbl_to_int in Ey; destruct Ht as (t & Ht); rewrite Ht in Ey;
            destruct (0 <=? t)%Z eqn:Hl; [|discriminate Ey]; apply Z.leb_le in Hl; cbn [andb] in Ey;
            match type of Ey with context[if ?b then _ else _] => destruct b end; congruence]).
  all: apply R; [reflexivity|reflexivity|].
  all: destruct x as [|[]| |]; cbn in Ev |- *; congruence.
Qed.

Lemma fill_given k v f : fill_number k v = Some f -> f <> NoFill.
Proof.
  intros H ->. destruct k, v as [[]|]; cbn in H; try discriminate H;
    repeat match type of H with context[match ?b with _ => _ end] => destruct b; try discriminate H end.
Qed.

Lemma dtype_elem dn d : sfind dn n5_to_dtype = Some d -> exists e, element_of d = Some e /\ el_big e = false /\
  (exists s, dtype_to_zarr d = Some s /\ type_string s = Some e) /\
  (exists s, dtype_to_n5 d = Some s /\ type_name s = Some e) /\ el_width e = dtype_size d /\
  match d with DT_complex64 | DT_complex128 | DT_complex256 => True | _ => False end = False.
Proof.
  unfold n5_to_dtype. cbn [sfind]. intros H.
  repeat match type of H with context[if ?b then _ else _] => destruct b end;
    try discriminate H; injection H as <-; eexists; (split; [reflexivity|]); (split; [reflexivity|]);
    (split; [eexists; split; reflexivity|]); (split; [eexists; split; reflexivity|]); now split.
Qed.

Lemma extents_reparse s : Forall (fun n => n < 2 ^ 64) s -> extents (Some (reparse (jof_shape s))) = Some s.
Proof.
  intros H. unfold jof_shape. cbn [reparse]. rewrite map_map. cbn [reparse]. now apply naturals_uint.
Qed.

Lemma rank_same (a b : shape) : lenN a = lenN b -> same_rank a b = true.
Proof. unfold lenN, same_rank. intros H. apply Nat.eqb_eq. lia. Qed.

Lemma delim_separator d s : s = "."%string \/ s = "/"%string -> separator d (Some (JStr s)) = Some s.
Proof. intros [-> | ->]; reflexivity. Qed.

Lemma written_v2 m j x h o dn : to_json_v2 m = Ok j -> md_fill m = x -> md_format m = 2%Z ->
  make_dataset h (KeyArgs (md_delim m) 2 (md_enc m)) m = Ok o -> md_zarr m = true -> md_shard m = [] ->
  sfind dn n5_to_dtype = Some (md_dtype m) -> lenN (md_shape m) = lenN (md_chunks m) ->
  portable true 2 (md_delim m) (md_enc m) (md_shape m) (md_chunks m) [] x o ->
  exists a, read_v2 (reparse j) = Some a /\ fits a o /\ do_fill a <> NoFill.
Proof.
  intros J Hx Hf Mk Hz Hs Hd Hr P. destruct (dtype_elem Hd) as (e & De & Nb & (s & Ds & Ts) & _ & _).
  unfold make_dataset in Mk. apply bind_ok in Mk. destruct Mk as (bl & _ & Mk). apply bind_ok in Mk. destruct Mk as (fe & Ef & Mk).
  apply bind_ok in Mk. destruct Mk as (cfg & Ec & Mk). rewrite Hs in Mk. injection Mk as <-.
  unfold to_json_v2 in J. apply bind_ok in J. destruct J as (co & Hco & J). apply bind_ok in J. destruct J as (dt & Hdt & J).
  injection J as <-. rewrite Ds in Hdt. injection Hdt as <-.
  destruct (Forall_app (fun n => n < 2 ^ 64) (md_shape m) (md_chunks m ++ [])) as [Fa _]. destruct (Fa (po_extents P)) as [F1 F2].
  rewrite app_nil_r in F2. rewrite Hx in Ef.
  destruct (v2_fill_of De Ef) as (f & Hfn & Hff). { intros n ->. exact (po_whole P eq_refl eq_refl eq_refl). }
  exists (Document (Zarr2 (md_delim m)) (md_shape m) (md_chunks m) e f (stream_of cfg)). split.
  - unfold read_v2. rewrite Hf, Hx.
    pose proof (v2_stream_of Hco Ec) as Hv. pose proof (extents_reparse F1) as E1. pose proof (extents_reparse F2) as E2.
    pose proof (@delim_separator "." _ (po_delim P eq_refl)) as Hsep.
    assert (Hnn : reparse (fill_json x) <> JNull) by (destruct x as [|[]| |]; discriminate).
    set (fj := reparse (fill_json x)) in *. set (cj := reparse co) in *. set (sj := reparse (jof_shape (md_shape m))) in *.
    set (chj := reparse (jof_shape (md_chunks m))) in *.
    assert (reparse (JObj [("compressor", co); ("dtype", JStr s); ("shape", jof_shape (md_shape m));
            ("chunks", jof_shape (md_chunks m)); ("fill_value", fill_json x);
            ("filters", JNull); ("order", JStr "C"); ("zarr_format", JInt 2);
            ("dimension_separator", JStr (md_delim m))])%string =
            JObj [("compressor", cj); ("dtype", JStr s); ("shape", sj);
            ("chunks", chj); ("fill_value", fj);
            ("filters", JNull); ("order", JStr "C"); ("zarr_format", JUInt 2);
            ("dimension_separator", JStr (md_delim m))])%string as -> by reflexivity.
    clearbody fj cj sj chj. cbn [member lookup String.eqb Ascii.eqb Bool.eqb integer text no_filters].
    rewrite E1, E2, Hsep, Hv, Ts. destruct fj; try contradiction; rewrite Hfn; rewrite (rank_same Hr); reflexivity.
  - split; [|exact (fill_given Hfn)]. constructor; cbn [op_shape op_chunks op_shard op_keys op_dtype op_fill op_codec do_shape do_chunks do_layout do_elem do_fill do_stream];
      try assumption; try reflexivity.
    destruct (md_dtype m); try discriminate De; rewrite Hz; reflexivity.
Qed.

Lemma written_n5 m j h ka o dn : to_json_n5 m = Ok j -> md_zarr m = false ->
  make_dataset h ka m = Ok o -> md_shard m = [] ->
  sfind dn n5_to_dtype = Some (md_dtype m) -> lenN (md_shape m) = lenN (md_chunks m) ->
  Forall (fun n => n < 2 ^ 64) (md_shape m ++ md_chunks m) ->
  (forall l b, op_codec o = Cfg_zlib l b -> b = false) -> element_fill (op_dtype o) (DZero false) = Ok (op_fill o) ->
  exists a, read_n5 (reparse j) = Some a /\ fits a o /\ do_fill a <> NoFill.
Proof.
  intros J Hz Mk Hs Hd Hr F Hc Hf. destruct (dtype_elem Hd) as (e & De & Nb & _ & (s & Ds & Ts) & _).
  unfold make_dataset in Mk. apply bind_ok in Mk. destruct Mk as (bl & _ & Mk). apply bind_ok in Mk. destruct Mk as (fe & Ef & Mk).
  apply bind_ok in Mk. destruct Mk as (cfg & Ec & Mk). rewrite Hs, Hz in Mk. injection Mk as <-. cbn [op_dtype op_fill op_codec] in Hf, Hc.
  unfold to_json_n5 in J. apply bind_ok in J. destruct J as (dt & Hdt & J). apply bind_ok in J. destruct J as (co & Hco & J).
  injection J as <-. rewrite Ds in Hdt. injection Hdt as <-.
  apply Forall_app in F. destruct F as [F1 F2].
  exists (Document N5 (md_shape m) (md_chunks m) e (match el_kind e with Real => RealFill (DZero false) | _ => WholeFill 0 end) (stream_of cfg)). split.
  - unfold read_n5.
    pose proof (extents_reparse (Forall_rev F1)) as E1. pose proof (extents_reparse (Forall_rev F2)) as E2.
    match goal with |- context[n5_stream ?d] => assert (n5_stream d = Some (stream_of cfg)) as -> end.
    { apply (n5_stream_of Hco Ec Hc). reflexivity. }
    set (sj := reparse (jof_shape (rev (md_shape m)))) in *. set (chj := reparse (jof_shape (rev (md_chunks m)))) in *.
    assert (reparse (JObj [("dimensions", jof_shape (rev (md_shape m))); ("blockSize", jof_shape (rev (md_chunks m)));
            ("dataType", JStr s); ("compression", co)])%string =
            JObj [("dimensions", sj); ("blockSize", chj); ("dataType", JStr s); ("compression", reparse co)])%string as -> by reflexivity.
    clearbody sj chj. cbn [member lookup String.eqb Ascii.eqb Bool.eqb text]. rewrite E1, E2, Ts.
    assert (same_rank (rev (md_shape m)) (rev (md_chunks m)) = true) as ->
      by (apply rank_same; unfold lenN in *; now rewrite !rev_length). now rewrite !rev_involutive.
  - split; [|cbn [do_fill]; destruct (el_kind e); discriminate]. constructor; cbn [op_shape op_chunks op_shard op_keys op_dtype op_fill op_codec do_shape do_chunks do_layout do_elem do_fill do_stream];
      try assumption; try reflexivity.
    + destruct (md_dtype m); reflexivity.
    + unfold element_fill in Hf.
      destruct (md_dtype m); try discriminate De; cbn [element_of] in De; injection De as <-; vm_compute in Hf; injection Hf as <-; reflexivity.
Qed.

Lemma written_v3 m j h o dn : to_json_v3 m = Ok j -> md_zarr m = true -> md_format m = 3%Z ->
  make_dataset h (KeyArgs (md_delim m) 3 (md_enc m)) m = Ok o ->
  sfind dn n5_to_dtype = Some (md_dtype m) -> lenN (md_shape m) = lenN (md_chunks m) ->
  (md_shard m <> [] -> lenN (md_shard m) = lenN (md_chunks m)) ->
  portable true 3 (md_delim m) (md_enc m) (md_shape m) (md_chunks m) (md_shard m) (md_fill m) o ->
  exists a, read_v3 (reparse j) = Some a /\ fits a o /\ do_fill a <> NoFill.
Proof.
  intros J Hz Hf Mk Hd Hr Hsr P. destruct (dtype_elem Hd) as (e & De & Nb & _ & (s & Ds & Ts) & We & _).
  unfold make_dataset in Mk. apply bind_ok in Mk. destruct Mk as (bl & _ & Mk). apply bind_ok in Mk. destruct Mk as (fe & Ef & Mk).
  apply bind_ok in Mk. destruct Mk as (cfg & Ec & Mk).
  assert (match md_dtype m with DT_complex64 | DT_complex128 | DT_complex256 => true | _ => false end = false) as Nc
    by (destruct (md_dtype m); try discriminate De; reflexivity).
  rewrite Nc, Hz in Mk. injection Mk as <-.
  unfold to_json_v3 in J. apply bind_ok in J. destruct J as (dt & Hdt & J). rewrite Ds in Hdt. injection Hdt as <-.
  apply bind_ok in J. destruct J as (fv & Hfv & J). apply bind_ok in J. destruct J as (inner & Hin & J).
  destruct (v3_fill_of De Ef Hfv) as (f & Hfn & Hff).
  pose proof (po_extents P) as F. apply Forall_app in F. destruct F as [F1 F]. apply Forall_app in F. destruct F as [F2 F3].
  pose proof (po_codec P) as Pc. cbn [op_codec] in Pc.
  assert (Hc : forall l b, cfg = Cfg_zlib l b -> b = false).
  { intros l b ->. cbn in Pc. destruct Pc as [[_ X]|X]; [discriminate X|exact X]. }
  pose proof (v3_chain_of Hin Ec Hc) as Hch. rewrite <- We in Hch.
  pose proof (extents_reparse F1) as E1. pose proof (extents_reparse F2) as E2. pose proof (extents_reparse F3) as E3.
  assert (K : key_encoding (Some (JObj [("name", JStr (md_enc m)); ("configuration", JObj [("separator", JStr (md_delim m))])])%string) =
    Some (String.eqb (md_enc m) "default", md_delim m)).
  { unfold key_encoding. cbn [member lookup String.eqb Ascii.eqb Bool.eqb text].
    destruct (po_delim P eq_refl) as [-> | ->]; destruct (po_enc P eq_refl eq_refl) as [-> | ->]; reflexivity. }
  assert (Eel : Element (el_kind e) (el_width e) false = e) by (destruct e; cbn in Nb; now subst).
  destruct (md_shard m) as [|n0 l0] eqn:Sh.
  - injection J as <-.
    exists (Document (Zarr3 (String.eqb (md_enc m) "default") (md_delim m)) (md_shape m) (md_chunks m) e f (stream_of cfg)). split.
    + unfold read_v3.
      set (sj := reparse (jof_shape (md_shape m))) in *. set (chj := reparse (jof_shape (md_chunks m))) in *.
      set (fj := reparse fv) in *. set (ij := reparse inner) in *.
      match goal with |- context[reparse ?d] =>
        assert (reparse d = JObj [("zarr_format", JUInt 3); ("node_type", JStr "array"); ("data_type", JStr s);
            ("shape", sj); ("chunk_grid", JObj [("name", JStr "regular"); ("configuration", JObj [("chunk_shape", chj)])]);
            ("chunk_key_encoding", JObj [("name", JStr (md_enc m)); ("configuration", JObj [("separator", JStr (md_delim m))])]);
            ("fill_value", fj); ("codecs", ij); ("attributes", JObj [])])%string as -> by reflexivity end.
      clearbody sj chj fj ij. cbn [member lookup String.eqb Ascii.eqb Bool.eqb text integer no_transformers regular_grid].
      rewrite E1, E2, K, Ts, Hfn, (rank_same Hr), Hch, Eel.
      assert (sharding (Some ij) = None) as ->.
      { unfold v3_chain in Hch. destruct ij as [| | | | | |l|]; try discriminate Hch.
        destruct l as [|b [|c [|]]]; try discriminate Hch; [|reflexivity].
        cbn [sharding]. unfold bytes_order in Hch. destruct (text (member "name" b)) as [nm|]; [|reflexivity].
        destruct (String.eqb nm "bytes") eqn:Eb; [|discriminate Hch]. apply String.eqb_eq in Eb. now subst nm. }
      reflexivity.
    + split; [|exact (fill_given Hfn)]. constructor; cbn [op_shape op_chunks op_shard op_keys op_dtype op_fill op_codec do_shape do_chunks do_layout do_elem do_fill do_stream];
        try assumption; reflexivity.
  - injection J as <-.
    exists (Document (Zarr3Sharded (String.eqb (md_enc m) "default") (md_delim m) (n0 :: l0)) (md_shape m) (md_chunks m) e f (stream_of cfg)). split.
    + unfold read_v3.
      set (sj := reparse (jof_shape (md_shape m))) in *. set (chj := reparse (jof_shape (md_chunks m))) in *.
      set (shj := reparse (jof_shape (n0 :: l0))) in *.
      set (fj := reparse fv) in *. set (ij := reparse inner) in *.
      match goal with |- context[reparse ?d] =>
        assert (reparse d = JObj [("zarr_format", JUInt 3); ("node_type", JStr "array"); ("data_type", JStr s);
            ("shape", sj); ("chunk_grid", JObj [("name", JStr "regular"); ("configuration", JObj [("chunk_shape", shj)])]);
            ("chunk_key_encoding", JObj [("name", JStr (md_enc m)); ("configuration", JObj [("separator", JStr (md_delim m))])]);
            ("fill_value", fj); ("codecs", JArr [JObj [("name", JStr "sharding_indexed");
                  ("configuration", JObj [("chunk_shape", chj); ("codecs", ij);
                          ("index_codecs", JArr [reparse bytes_codec; JObj [("name", JStr "crc32c")]]);
                          ("index_location", JStr "end")])]]); ("attributes", JObj [])])%string as -> by reflexivity end.
      clearbody sj chj shj fj ij. cbn [member lookup String.eqb Ascii.eqb Bool.eqb text integer no_transformers regular_grid sharding].
      rewrite E1, E2, E3, K, Ts, Hfn, (rank_same Hr), Hch, Eel.
      assert (same_rank (md_shape m) (n0 :: l0) = true) as -> by (apply rank_same; rewrite Hsr by discriminate; exact Hr).
      reflexivity.
    + split; [|exact (fill_given Hfn)]. constructor; cbn [op_shape op_chunks op_shard op_keys op_dtype op_fill op_codec do_shape do_chunks do_layout do_elem do_fill do_stream];
        try assumption; reflexivity.
Qed.

Theorem written_fits s s' root key dn sh ch cn op x delim fmt enc shard o z :
  fs_ok s -> is_zarr_group s (h_path root) = Ok z ->
  create_dataset root key dn sh ch cn op x delim fmt enc shard s = (s', Ok o) ->
  portable z fmt delim enc sh ch shard x o ->
  exists a, read_node s' (op_path o) = Some a /\ fits a o /\ do_fill a <> NoFill.
Proof.
  intros F Z C P. unfold create_dataset, fbind, freading, fret in C. rewrite Z in C.
  destruct (create_metadata dn sh ch z cn op x delim fmt enc shard) as [m|e|] eqn:M; [|discriminate C|discriminate C].
  apply create_fields in M. destruct M as (Mz & Mf & Md & Msh & Mch & Mc & Mo & Mx & Mdl & Me & Ms & Mr & Msd).
  apply fs_create_inv in C; [|assumption]. destruct C as (j & [Cm Ca Cj Ck Cf]).
  apply fresh_paths in Cf. destruct Cf as (_ & Df & Dn).
  assert (Po : op_path o = h_path root ++ key).
  { unfold make_dataset in Ck. repeat (apply bind_ok in Ck; destruct Ck as (? & _ & Ck)). injection Ck as <-. reflexivity. }
  rewrite Po. cbn [h_path] in Df, Dn. unfold read_node. unfold md_doc in Df, Dn. unfold to_json in Cj. rewrite Mz, Mf in *.
  destruct z.
  - cbn [andb] in Cj. destruct (po_format P eq_refl) as [-> | ->]; cbn [Z.eqb Pos.eqb] in *.
    + rewrite Df, !Dn by discriminate. subst.
      assert (md_shard m = []) as Sh. { destruct (md_shard m); [reflexivity|]. destruct Msd as (_ & X & _); discriminate. }
      rewrite Sh in P. eapply written_v2; try eassumption; try reflexivity.
    + rewrite Df, !Dn by discriminate. subst. eapply written_v3; try eassumption; try reflexivity.
      intros N. destruct (Msd N) as (_ & _ & X & _). exact X.
  - cbn [andb] in Cj. rewrite Df, !Dn by discriminate. subst.
    assert (md_shard m = []) as Sh. { destruct (md_shard m); [reflexivity|]. destruct Msd as (X & _); discriminate. }
    pose proof (po_extents P) as E. rewrite Sh, app_nil_r in E.
    eapply written_n5; try eassumption; try reflexivity.
    + intros l b Hc. pose proof (po_codec P) as Pc. rewrite Hc in Pc. cbn in Pc. destruct Pc as [[X _]|X]; [discriminate X|exact X].
    + destruct (po_fill P) as [X|X]; [discriminate X|]. exact X.
Qed.

Lemma integer_int z : integer (Some (if (0 <=? z)%Z then JUInt (Z.to_N z) else JInt z)) = Some z.
Proof. destruct (0 <=? z)%Z eqn:H; cbn [integer]; [|reflexivity]. apply Z.leb_le in H. now rewrite Z2N.id. Qed.

Lemma chain_setting c o j cfg w v : write_v3_codecs c o w = Ok j -> init_compressor c o = Ok cfg ->
  setting_of cfg w = Some v ->
  match reparse j with JArr [_] => Some Plain | JArr [_; k] => v3_codec_setting k | _ => None end = Some v /\
  sharding (Some (reparse j)) = None.
Proof.
  intros W I V. destruct c; unfold write_v3_codecs in W; unfold init_compressor in I; try discriminate W;
    repeat (apply bind_ok in W; let x := fresh "x" in let Hx := fresh "Hx" in destruct W as (x & Hx & W));
    injection W as <-;
    repeat (match goal with H : opt_int ?k ?o = Ok _ |- _ => rewrite H in I; clear H | H : opt_str ?k ?o = Ok _ |- _ => rewrite H in I; clear H
                          | H : opt_bool ?k ?o = Ok ?b |- _ => rewrite H in I; clear H end; cbn [bind] in I);
    repeat (apply bind_ok in I; let x := fresh "x" in destruct I as (x & _ & I));
    injection I as <-; cbn [setting_of] in V; (split; [|reflexivity]).
  - injection V as <-. reflexivity.
  - unfold bytes_codec. cbn [reparse map List.map fst snd]. unfold v3_codec_setting.
    destruct x1 as [|[p|[]|]|]; try discriminate V; injection V as <-; cbn [member lookup String.eqb Ascii.eqb Bool.eqb text];
      now rewrite ?integer_int.
  - injection V as <-. unfold bytes_codec. cbn [reparse map List.map fst snd]. unfold v3_codec_setting.
    cbn [member lookup String.eqb Ascii.eqb Bool.eqb text]. now rewrite ?integer_int.
  - injection V as <-. unfold bytes_codec. cbn [reparse map List.map fst snd]. unfold v3_codec_setting.
    cbn [member lookup String.eqb Ascii.eqb Bool.eqb text]. now rewrite ?integer_int.
Qed.

Theorem written_settings s s' root key dn sh ch cn op x delim enc shard o v w :
  fs_ok s -> is_zarr_group s (h_path root) = Ok true ->
  create_dataset root key dn sh ch cn op x delim 3 enc shard s = (s', Ok o) ->
  element_of (op_dtype o) = Some w -> setting_of (op_codec o) (el_width w) = Some v ->
  exists j, s' (op_path o ++ ["zarr.json"%string]) = Some (NDoc j) /\ v3_settings j = Some v.
Proof.
  intros F Z C E V. unfold create_dataset, fbind, freading, fret in C. rewrite Z in C.
  destruct (create_metadata dn sh ch true cn op x delim 3 enc shard) as [m|e|] eqn:M; [|discriminate C|discriminate C].
  apply create_fields in M. destruct M as (Mz & Mf & Md & Msh & Mch & Mc & Mo & Mx & Mdl & Me & Ms & Mr & Msd).
  apply fs_create_inv in C; [|assumption]. destruct C as (j & [Cm Ca Cj Ck Cf]).
  apply fresh_paths in Cf. destruct Cf as (_ & Df & Dn).
  unfold to_json in Cj. unfold md_doc in Df. rewrite Mz, Mf in *. cbn [andb Z.eqb Pos.eqb] in Cj, Df.
  destruct (dtype_elem Md) as (e & De & Nb & _ & (ds & Ds & Ts) & We & _).
  unfold make_dataset in Ck. apply bind_ok in Ck. destruct Ck as (bl & _ & Mk). apply bind_ok in Mk. destruct Mk as (fe & Ef & Mk).
  apply bind_ok in Mk. destruct Mk as (cfg & Ec & Mk).
  assert (match md_dtype m with DT_complex64 | DT_complex128 | DT_complex256 => true | _ => false end = false) as Nc
    by (destruct (md_dtype m); try discriminate De; reflexivity).
  rewrite Nc in Mk. injection Mk as <-. cbn [op_path op_dtype op_codec h_path] in *.
  exists (reparse j). split; [exact Df|].
  rewrite De in E. injection E as <-. rewrite We in V.
  unfold to_json_v3 in Cj. apply bind_ok in Cj. destruct Cj as (dt & _ & Cj). apply bind_ok in Cj. destruct Cj as (fv & _ & Cj).
  apply bind_ok in Cj. destruct Cj as (inner & Hin & Cj). injection Cj as <-.
  destruct (chain_setting Hin Ec V) as (H1 & H2).
  unfold v3_settings. set (ij := reparse inner) in *.
  destruct (md_shard m) as [|n0 l0].
  - match goal with |- context[sharding (member ?a ?d)] => assert (member a d = Some ij) as -> by reflexivity end.
    rewrite H2. exact H1.
  - match goal with |- context[sharding (member ?a ?d)] => assert (exists q, sharding (member a d) = Some q /\ member "codecs" q = Some ij) as (q & -> & ->) end.
    { eexists. split; reflexivity. } exact H1.
Qed.
