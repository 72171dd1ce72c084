(** Ordinary documents of other programs are accepted. *)
From Coq Require Import ZArith String Ascii Lia List.
From Verif Require Import M_Base M_Double M_Json M_Mode M_Key M_Blocking M_Metadata M_Fs M_Attributes M_Container
  S_Metadata S_Container S_Layout S_Interop S_Document S_Described P_Base P_Metadata P_Container P_Document.
Import ListNotations.
Local Open Scope list_scope.
Local Open Scope N_scope.
Local Notation length := List.length.
Set Implicit Arguments.

Lemma number_idx k j : number k j -> exists z, jidx_int k j = Ok z.
Proof.
  unfold number. rewrite member_find. intros H. destruct (jfind k j) as [v|] eqn:E; [|now elim H].
  unfold jidx_int. rewrite (find_idx E). cbn [bind]. destruct v; cbn in H; try (now elim H); cbn; eauto.
Qed.
Lemma number_find k j d : number_if k j -> exists z, jfind_int k d j = Ok z.
Proof.
  unfold number_if, number. rewrite member_find. unfold jfind_int. intros H. destruct (jfind k j) as [v|]; [|eauto].
  destruct H as [H|H]; [discriminate H|]. destruct v; cbn in H; try (now elim H); cbn; eauto.
Qed.
Lemma word_idx k j : word k j -> exists s, jidx_str k j = Ok s.
Proof.
  unfold word. rewrite member_find. intros H. destruct (jfind k j) as [v|] eqn:E; [|now elim H].
  unfold jidx_str. rewrite (find_idx E). cbn [bind]. destruct v; cbn in H; try (now elim H); cbn; eauto.
Qed.
Lemma number_value k l d : number_if k (JObj l) -> exists z, jvalue jget_int k d (JObj l) = Ok z.
Proof.
  unfold number_if, number. rewrite member_find. cbn [jfind jvalue]. intros H. destruct (jlookup k l) as [v|]; [|eauto].
  destruct H as [H|H]; [discriminate H|]. destruct v; cbn in H; try (now elim H); cbn; eauto.
Qed.
Lemma word_value k l d : word_if k (JObj l) -> exists s, jvalue jget_str k d (JObj l) = Ok s.
Proof.
  unfold word_if, word. rewrite member_find. cbn [jfind jvalue]. intros H. destruct (jlookup k l) as [v|]; [|eauto].
  destruct H as [H|H]; [discriminate H|]. destruct v; cbn in H; try (now elim H); cbn; eauto.
Qed.

Ltac get H := let x := fresh "x" in let E := fresh "E" in destruct H as (x & E); rewrite E; cbn [bind].

Lemma zarr_accepts id s co :
  lookup id [("zlib", Zlib); ("gzip", Gzip); ("bz2", Bzip2); ("lzma", Xz); ("lz4", Lz4); ("blosc", Blosc); ("zstd", Zstd)]%string = Some s ->
  v2_parameters s co -> jidx_str "id" co = Ok id ->
  exists c, sfind id zarr_to_compressor = Some c /\ exists o, read_zarr_options c co [] = Ok o /\ exists cfg, init_compressor c o = Ok cfg.
Proof.
  intros H P I. cbn [lookup] in H. eqcase H; try discriminate H; injection H as <-; cbn [v2_parameters] in P; try contradiction;
    (eexists; split; [reflexivity|]); cbn [read_zarr_options].
  - get (number_idx P). rewrite I. cbn [bind]. eexists. split; [reflexivity|]. cbn. eauto.
  - get (number_idx P). rewrite I. cbn [bind]. eexists. split; [reflexivity|]. cbn. eauto.
  - get (number_idx P). eexists. split; [reflexivity|]. cbn. eauto.
  - get (number_idx P). eexists. split; [reflexivity|]. cbn. eauto.
  - destruct P as (P1 & P2 & P3 & P4). get (word_idx P1). get (number_idx P2). get (number_idx P3). get (number_find 0%Z P4).
    eexists. split; [reflexivity|]. cbn. eauto.
  - get (number_idx P). eexists. split; [reflexivity|]. cbn. eauto.
Qed.

Lemma zarr_type s e : type_string s = Some e -> el_big e = false -> (el_width e = 1 -> s = "|i1"%string \/ s = "|u1"%string) ->
  (el_kind e = Real -> el_width e = 4 \/ el_width e = 8) ->
  exists d, sfind s zarr_to_dtype = Some d.
Proof.
  intros H B N1 Re. destruct s as [|o [|k r]]; cbn [type_string] in H; try discriminate H.
  destruct (Ascii.eqb k "i"%char) eqn:K1; [apply Ascii.eqb_eq in K1; subst k|
    destruct (Ascii.eqb k "u"%char) eqn:K2; [apply Ascii.eqb_eq in K2; subst k|
      destruct (Ascii.eqb k "f"%char) eqn:K3; [apply Ascii.eqb_eq in K3; subst k|discriminate H]]];
  (destruct (lookup r [("1", 1); ("2", 2); ("4", 4); ("8", 8)]%string) as [w|] eqn:L; [|discriminate H]);
  cbn [lookup] in L; eqcase L; try discriminate L; injection L as <-;
  cbn [N.eqb Pos.eqb negb andb] in H;
  (destruct (Ascii.eqb o "<"%char) eqn:O1; [apply Ascii.eqb_eq in O1; subst o|
    destruct (Ascii.eqb o ">"%char) eqn:O2; [apply Ascii.eqb_eq in O2; subst o|
      destruct (Ascii.eqb o "|"%char) eqn:O3; [apply Ascii.eqb_eq in O3; subst o|cbn [andb] in H; discriminate H]]]);
  try discriminate H; injection H as <-; try discriminate B; try (specialize (N1 eq_refl); destruct N1 as [N1|N1]; discriminate N1);
  try (specialize (Re eq_refl); cbn in Re; destruct Re; discriminate); cbn; eauto.
Qed.

Lemma name_type s e : type_name s = Some e -> exists d, sfind s n5_to_dtype = Some d.
Proof. intros H. unfold type_name in H. cbn [lookup] in H. eqcase H; try discriminate H; cbn; eauto. Qed.

Lemma fill_double k v f n : fill_number k (Some v) = Some f -> exists x, fill_of_json n v = Ok x.
Proof.
  intros H. destruct k, v; cbn in H; try discriminate H; cbn; eauto.
  repeat match type of H with context[if ?b then _ else _] => destruct b end; try discriminate H; eauto.
Qed.

Lemma sat_some V k (l : list (string * V)) v : sfind k l = Some v -> sat k l = Ok v.
Proof. unfold sat. now intros ->. Qed.

(** The last steps, for metadata that a document means. *)
Lemma range_ok d e z : element_of d = Some e -> fill_in_range e (WholeFill z) -> el_kind e <> Real ->
  exists lo hi, dtype_range d = Some (lo, hi) /\ (lo <= z <= hi)%Z.
Proof.
  intros D R K. destruct d; try discriminate D; cbn [element_of] in D; injection D as <-; cbn in R, K |- *; try congruence;
    do 2 eexists; (split; [reflexivity|]); lia.
Qed.

Lemma make_ok h ka a m cfg : meant a m -> init_compressor (md_comp m) (md_opts m) = Ok cfg ->
  do_shape a <> [] -> length (do_shape a) = length (do_chunks a) -> Forall (fun n => 0 < n) (do_chunks a) -> fill_in_range (do_elem a) (do_fill a) ->
  exists o, make_dataset h ka m = Ok o.
Proof.
  intros M I Nn L C R. unfold make_dataset, mk_blocking. rewrite (me_shape M), (me_chunks M).
  assert ((lenN (do_shape a) =? 0) = false) as ->.
  { apply N.eqb_neq. destruct (do_shape a); [congruence|]. unfold lenN. cbn. lia. }
  assert ((lenN (do_chunks a) <? lenN (do_shape a)) = false) as -> by (apply N.ltb_ge; unfold lenN; lia).
  rewrite L, firstn_all.
  assert (existsb (fun x => x =? 0) (do_chunks a) = false) as ->.
  { clear - C. induction C as [|n l H _ IH]; [reflexivity|]. cbn [existsb]. rewrite IH. rewrite Bool.orb_false_r. apply N.eqb_neq. lia. }
  cbn [bind].
  assert (exists f, element_fill (md_dtype m) (md_fill m) = Ok f) as (f & ->).
  { unfold element_fill. pose proof (me_elem M) as E. pose proof (me_fill M) as F. pose proof (me_kind M) as K.
    destruct (do_fill a) as [|z|y]; cbn [fill_says] in F.
    - cbn in R. destruct (md_dtype m); try discriminate E; cbn [element_of] in E; injection E as E; rewrite <- E in R; try discriminate R; cbn; eauto.
    - destruct (range_ok E R K) as (lo & hi & -> & Hz). unfold dbl_to_int. rewrite F.
      assert ((lo <=? z) && (z <=? hi) = true)%Z as -> by (apply Bool.andb_true_iff; split; apply Z.leb_le; lia). cbn. eauto.
    - destruct (md_dtype m); try discriminate E; cbn [element_of] in E; injection E as E; rewrite <- E in K; try discriminate K; cbn; eauto. }
  cbn [bind]. rewrite I. cbn [bind]. eauto.
Qed.

Lemma parses_v2 j a : read_v2 j = Some a -> ordinary j a -> exists m, from_json j true = Ok m /\
  exists cfg, init_compressor (md_comp m) (md_opts m) = Ok cfg.
Proof.
  intros H O. pose proof (or_order O) as Oo. pose proof (or_byte O) as Ob. pose proof (or_real O) as Or. pose proof (or_parameters O) as Op. clear O.
  unfold read_v2 in H. inv H. injection H as <-. cbn [do_elem do_fill do_shape do_chunks do_layout do_stream parameters] in *.
  rename s into order, l into sh, l0 into ch, s0 into dt, s1 into sep, s2 into st.
  apply Bool.andb_true_iff in E9. destruct E9 as [E9 RK]. apply Bool.andb_true_iff in E9. destruct E9 as [FM OC].
  apply Z.eqb_eq in FM. subst z. rewrite member_find in E.
  assert (exists v, jfind "zarr_format" j = Some v /\ jget_int v = Ok 2%Z /\ jeq_int v 2 = true) as (v & Ev & Hv & Hq).
  { destruct (jfind "zarr_format" j) as [[]|]; cbn in E; try discriminate E; injection E as E; eexists; (split; [reflexivity|]);
      cbn [jget_int jeq_int]; rewrite E; split; reflexivity. }
  unfold from_json. rewrite Ev. cbn [bind]. rewrite Hv. cbn [bind Z.eqb Pos.eqb].
  unfold from_json_v2, check_json.
  apply text_find in E0. rewrite E0. cbn [jeq_str]. rewrite OC. cbn [negb].
  rewrite Ev, Hq. cbn [negb].
  assert (match jfind "filters" j with Some v => negb (jis_null v) && (0 <? jsize v) | None => false end = false) as ->.
  { rewrite member_find in E1. destruct (jfind "filters" j) as [[| | | | | |[]|]|]; try discriminate E1; reflexivity. }
  cbn [bind].
  destruct (extents_find E2) as (vs & Fs & Ss & _). destruct (extents_find E3) as (vc & Fc & Sc & _).
  pose proof (Ob _ eq_refl) as Ob'.
  apply text_find in E4. rewrite (find_idx E4). cbn [bind jget_str].
  destruct (zarr_type E7 Oo Ob' Or) as (d & Hd). rewrite (sat_some Hd). cbn [or_runtime bind].
  rewrite (find_idx Fs). cbn [bind]. rewrite Ss. cbn [bind]. rewrite (find_idx Fc). cbn [bind]. rewrite Sc. cbn [bind].
  assert (exists fj x, jidx "fill_value" j = Ok fj /\ fill_of_json DNan fj = Ok x) as (fj & x & Hfj & Hx).
  { rewrite member_find in E8. destruct (jfind "fill_value" j) as [fj|] eqn:Ef; [|destruct (el_kind e); discriminate E8].
    exists fj. rewrite (find_idx Ef). destruct fj; cbv iota beta in E8; try (destruct (fill_double DNan E8) as (x & Hx); exists x; split; [reflexivity|exact Hx]).
    1:{ exists DNan. split; reflexivity. }
    all: destruct (fill_double DNan E8) as (x1 & Hx1); exists x1; split; [reflexivity|exact Hx1]. }
  rewrite Hfj. cbn [bind]. rewrite Hx. cbn [bind].
  assert (exists dl, match jfind "dimension_separator" j with Some v => jget_str v | None => Ok "."%string end = Ok dl) as (dl & ->).
  { rewrite member_find in E5. destruct (jfind "dimension_separator" j) as [[]|]; cbn in E5; try discriminate E5; cbn; eauto. }
  cbn [bind].
  rewrite member_find in E6, Op. destruct (jfind "compressor" j) as [co|] eqn:Ec; [|discriminate E6]. rewrite (find_idx Ec). cbn [bind].
  assert (CS : forall c o, check_shapes (Metadata true 2 d sh ch c o x dl "default" []) = Ok (Metadata true 2 d sh ch c o x dl "default" [])).
  { intros c o. unfold check_shapes. cbn [md_shape md_chunks]. now rewrite (same_rank_len RK). }
  destruct (jis_null co) eqn:En.
  - destruct co; try discriminate En. cbn [bind sat sfind zarr_to_compressor String.eqb Ascii.eqb Bool.eqb or_runtime read_zarr_options].
    rewrite CS. eexists. split; [reflexivity|]. cbn. eauto.
  - assert (E6' : match text (member "id" co) with Some id => lookup id [("zlib", Zlib); ("gzip", Gzip); ("bz2", Bzip2); ("lzma", Xz);
                                      ("lz4", Lz4); ("blosc", Blosc); ("zstd", Zstd)]%string | None => None end = Some st)
        by (destruct co; [discriminate En|exact E6..]).
    destruct (text (member "id" co)) as [id|] eqn:Ei; [|discriminate E6']. apply text_find in Ei.
    assert (Hid : jidx_str "id" co = Ok id) by (unfold jidx_str; rewrite (find_idx Ei); reflexivity).
    rewrite Hid. cbn [bind]. destruct (zarr_accepts E6' Op Hid) as (c & Hc & o & Ho & cfg & Hcfg).
    rewrite (sat_some Hc). cbn [or_runtime bind]. rewrite Ho. cbn [bind]. rewrite CS. eexists. split; [reflexivity|]. cbn. eauto.
Qed.

Lemma n5_accepts n s co :
  (if String.eqb n "gzip" then Some Gzip else
   lookup n [("raw", NoStream); ("bzip2", Bzip2); ("xz", Xz); ("lz4", Lz4); ("blosc", Blosc); ("zstd", Zstd)]%string) = Some s ->
  n5_parameters s co ->
  exists c, sfind n n5_to_compressor = Some c /\ exists o, read_n5_options c co [] = Ok o /\ exists cfg, init_compressor c o = Ok cfg.
Proof.
  intros H P. cbn [lookup] in H. eqcase H; try discriminate H; injection H as <-; cbn [n5_parameters] in P;
    (eexists; split; [reflexivity|]); cbn [read_n5_options].
  - get (number_idx P). eexists. split; [reflexivity|]. cbn. eauto.
  - eexists. split; [reflexivity|]. cbn. eauto.
  - get (number_idx P). eexists. split; [reflexivity|]. cbn. eauto.
  - get (number_idx P). eexists. split; [reflexivity|]. cbn. eauto.
  - get (number_idx P). eexists. split; [reflexivity|]. cbn. eauto.
  - destruct P as (P1 & P2 & P3 & P4 & P5). get (word_idx P1). get (number_idx P2). get (number_idx P3). get (number_find 0%Z P4). get (number_find 1%Z P5).
    eexists. split; [reflexivity|]. cbn. eauto.
  - get (number_idx P). eexists. split; [reflexivity|]. cbn. eauto.
Qed.

Lemma parses_n5 j a : read_n5 j = Some a -> ordinary j a -> exists m, from_json j false = Ok m /\
  exists cfg, init_compressor (md_comp m) (md_opts m) = Ok cfg.
Proof.
  intros H O. pose proof (or_parameters O) as Op. pose proof (or_stream O) as Os. clear O.
  unfold read_n5 in H. inv H. injection H as <-. cbn [do_elem do_fill do_shape do_chunks do_layout do_stream parameters] in *. specialize (Os eq_refl).
  unfold from_json, from_json_n5.
  destruct (extents_find E) as (vs & Fs & _ & Ss). destruct (extents_find E0) as (vc & Fc & _ & Sc).
  apply text_find in E1. rewrite (find_idx E1). cbn [bind jget_str]. destruct (name_type E3) as (d & Hd). rewrite (sat_some Hd). cbn [bind].
  rewrite (find_idx Fs). cbn [bind]. rewrite Ss. cbn [bind]. rewrite (find_idx Fc). cbn [bind]. rewrite Sc. cbn [bind].
  assert (CS : forall c o, check_shapes (Metadata false 2 d (rev l) (rev l0) c o (DZero false) "" "default" []) = Ok (Metadata false 2 d (rev l) (rev l0) c o (DZero false) "" "default" [])).
  { intros c o. unfold check_shapes. cbn [md_shape md_chunks]. apply same_rank_len in E4. unfold lenN in *. rewrite !rev_length. now rewrite E4. }
  unfold n5_stream in E2. rewrite member_find in E2, Op. destruct (jfind "compression" j) as [jo|].
  - destruct (text (member "type" jo)) as [n|] eqn:En; [|discriminate E2]. apply text_find in En. rewrite En. cbn [bind jget_str].
    assert (E2' : (if String.eqb n "gzip" then Some Gzip else
       lookup n [("raw", NoStream); ("bzip2", Bzip2); ("xz", Xz); ("lz4", Lz4); ("blosc", Blosc); ("zstd", Zstd)]%string) = Some s0).
    { destruct (String.eqb n "gzip"); [|exact E2]. destruct (member "useZlib" jo) as [[|[]| | | | | |]|]; try discriminate E2; congruence. }
    destruct (n5_accepts E2' Op) as (c & Hc & o & Ho & cfg & Hcfg). rewrite (sat_some Hc). cbn [or_runtime bind]. rewrite Ho. cbn [bind fst snd].
    rewrite CS. eexists. split; [reflexivity|]. cbn. eauto.
  - destruct (text (member "compressionType" j)) as [n|] eqn:En; [|discriminate E2]. apply text_find in En. rewrite En. cbn [bind jget_str].
    cbn [lookup] in E2. eqcase E2; try discriminate E2; cbn [sat sfind n5_to_compressor String.eqb Ascii.eqb Bool.eqb or_runtime bind fst snd];
      rewrite CS; eexists; (split; [reflexivity|]); cbn; eauto.
Qed.

Lemma compression_accepts c s : v3_stream c = Some s -> v3_parameters s c -> exists r, read_v3_codec (C_raw, []) c = Ok r /\
  exists cfg, init_compressor (fst r) (snd r) = Ok cfg.
Proof.
  unfold v3_stream. destruct (text (member "name" c)) as [n|] eqn:E; [|discriminate]. apply text_find in E. intros H P.
  unfold read_v3_codec. rewrite (find_at E). cbn [bind jget_str]. unfold v3_parameters in P. rewrite member_find in P.
  assert (exists l, (if jcontains "configuration" c then jat "configuration" c else Ok (JObj [])) = Ok (JObj l) /\
    match s with
    | Blosc => word_if "cname" (JObj l) /\ number_if "clevel" (JObj l) /\ word_if "shuffle" (JObj l) /\ number_if "blocksize" (JObj l)
    | _ => number_if "level" (JObj l)
    end) as (l & Hl & Pl).
  { unfold jcontains. destruct (jfind "configuration" c) as [[]|] eqn:F; try contradiction.
    - eexists. split; [exact (find_at F)|exact P].
    - exists []. split; [reflexivity|]. destruct s; repeat split; now left. }
  clear P. cbn [lookup] in H. eqcase H; try discriminate H; injection H as <-; cbn [String.eqb Ascii.eqb Bool.eqb];
    rewrite Hl; cbn [bind].
  - get (number_value 5%Z Pl). eexists. split; [reflexivity|]. cbn. eauto.
  - get (number_value 3%Z Pl). eexists. split; [reflexivity|]. cbn. eauto.
  - destruct Pl as (P1 & P2 & P3 & P4). get (word_value "lz4"%string P1). get (number_value 5%Z P2).
    assert (exists z, (if jcontains "shuffle" (JObj l) then let! s := jat "shuffle" (JObj l) in shuffle_of_json s else Ok 1%Z) = Ok z) as (z & ->).
    { unfold word_if, word in P3. rewrite member_find in P3. unfold jcontains. destruct (jfind "shuffle" (JObj l)) as [v|] eqn:F; [|eauto].
      rewrite (find_at F). cbn [bind]. destruct P3 as [P3|P3]; [discriminate P3|]. destruct v; cbn in P3; try (now elim P3). cbn. eauto. }
    cbn [bind]. get (number_value 0%Z P4). eexists. split; [reflexivity|]. cbn. eauto.
Qed.

Lemma chain_accepts w v big s : v3_chain w (Some v) = Some (big, s) -> chain_parameters s (Some v) ->
  exists r, read_v3_codecs v [] = Ok r /\ exists cfg, init_compressor (fst r) (snd r) = Ok cfg.
Proof.
  destruct v as [| | | | | |l|]; cbn [v3_chain]; try discriminate. destruct l as [|b [|c [|]]]; try discriminate.
  - destruct (bytes_order w b) as [big'|] eqn:Eb; [|discriminate]. intros _ _. destruct (bytes_codec_read (C_raw, []) Eb) as (R & _).
    unfold read_v3_codecs. cbn [jelems foldM]. unfold options in *. rewrite R. cbn. eexists. split; [reflexivity|]. cbn. eauto.
  - destruct (bytes_order w b) as [big'|] eqn:Eb; [|discriminate]. destruct (v3_stream c) as [s'|] eqn:Es; [|discriminate].
    intros H P. injection H as <- <-. destruct (bytes_codec_read (C_raw, []) Eb) as (R & _). cbn [chain_parameters] in P.
    destruct (compression_accepts Es P) as (r & Hr & cfg & Hc).
    unfold read_v3_codecs. cbn [jelems foldM]. unfold options in *. rewrite R. cbn [bind foldM]. rewrite Hr. cbn [bind foldM]. eauto.
Qed.

Lemma parses_v3 j a : read_v3 j = Some a -> ordinary j a -> exists m, from_json j true = Ok m /\
  exists cfg, init_compressor (md_comp m) (md_opts m) = Ok cfg.
Proof.
  intros H O. pose proof (or_parameters O) as Op. clear O. unfold read_v3 in H.
  destruct (integer (member "zarr_format" j)) as [fmt|] eqn:E; [|discriminate H].
  destruct (text (member "node_type" j)) as [nt|] eqn:E0; [|discriminate H].
  destruct (text (member "data_type" j)) as [dt|] eqn:E1; [|discriminate H].
  destruct (extents (member "shape" j)) as [sh|] eqn:E2; [|discriminate H].
  destruct (regular_grid (member "chunk_grid" j)) as [outer|] eqn:E3; [|discriminate H].
  destruct (key_encoding (member "chunk_key_encoding" j)) as [[prefix sep]|] eqn:E4; [|discriminate H].
  destruct (no_transformers (member "storage_transformers" j)); [|discriminate H].
  destruct (type_name dt) as [e|] eqn:E5; [|discriminate H].
  destruct (fill_number (el_kind e) (member "fill_value" j)) as [f|] eqn:E6; [|discriminate H].
  destruct ((fmt =? 3)%Z && String.eqb nt "array" && same_rank sh outer)%bool eqn:E7; [|discriminate H].
  apply Bool.andb_true_iff in E7. destruct E7 as [E7 RK]. apply Bool.andb_true_iff in E7. destruct E7 as [FM NT].
  apply Z.eqb_eq in FM. subst fmt. rewrite member_find in E, E4.
  assert (exists v, jfind "zarr_format" j = Some v /\ jget_int v = Ok 3%Z) as (v & Ev & Hv).
  { destruct (jfind "zarr_format" j) as [[]|]; cbn in E; try discriminate E; injection E as E; eexists; (split; [reflexivity|]);
      cbn [jget_int]; rewrite E; reflexivity. }
  unfold from_json. rewrite Ev. cbn [bind]. rewrite Hv. cbn [bind Z.eqb Pos.eqb].
  unfold from_json_v3. apply text_find in E0, E1. rewrite (find_at E0). cbn [bind jeq_str]. rewrite NT. cbn [negb].
  rewrite (find_at E1). cbn [bind jget_str]. destruct (name_type E5) as (d & Hd). rewrite (sat_some Hd). cbn [or_runtime bind].
  destruct (extents_find E2) as (vs & Fs & Ss & _). rewrite (find_at Fs). cbn [bind]. rewrite Ss. cbn [bind].
  assert (exists g1 g2 g3, jat "chunk_grid" j = Ok g1 /\ jat "configuration" g1 = Ok g2 /\ jat "chunk_shape" g2 = Ok g3 /\ jshape g3 = Ok outer) as (g1 & g2 & g3 & G1 & G2 & G3 & G4).
  { rewrite member_find in E3. unfold regular_grid in E3. destruct (jfind "chunk_grid" j) as [g1|] eqn:EG; [|discriminate E3].
    destruct (text (member "name" g1)) as [nm|]; [|discriminate E3]. rewrite member_find in E3.
    destruct (jfind "configuration" g1) as [g2|] eqn:EG2; [|discriminate E3].
    destruct (String.eqb nm "regular"); [|discriminate E3]. destruct (extents_find E3) as (g3 & F3 & S3 & _).
    exists g1, g2, g3. repeat split; auto using find_at. }
  rewrite G1. cbn [bind]. rewrite G2. cbn [bind]. rewrite G3. cbn [bind]. rewrite G4. cbn [bind].
  destruct (jfind "chunk_key_encoding" j) as [cke|] eqn:Ek; [|discriminate E4]. rewrite (find_at Ek). cbn [bind].
  unfold key_encoding in E4. destruct (text (member "name" cke)) as [en|] eqn:Een; [|discriminate E4]. apply text_find in Een.
  rewrite (find_at Een). cbn [bind jget_str].
  assert (exists delim, match jfind "configuration" cke with
      | Some cfg => match jfind "separator" cfg with Some s => jget_str s | None => Ok (if String.eqb en "v2" then "." else "/")%string end
      | None => Ok (if String.eqb en "v2" then "." else "/")%string end = Ok delim) as (delim & ->).
  { rewrite member_find in E4. destruct (jfind "configuration" cke) as [cfg|]; [|eauto]. rewrite member_find in E4.
    destruct (jfind "separator" cfg) as [v0|]; [|eauto].
    destruct v0; cbn [separator] in E4; try (destruct (String.eqb en "default"), (String.eqb en "v2"); discriminate E4). cbn. eauto. }
  cbn [bind].
  rewrite member_find in E6. destruct (jfind "fill_value" j) as [fj|] eqn:Ef; [|destruct (el_kind e); discriminate E6].
  rewrite (find_at Ef). cbn [bind]. destruct (fill_double (DZero false) E6) as (x & ->). cbn [bind].
  rewrite member_find in H. destruct (jfind "codecs" j) as [codecs|] eqn:Ec.
  2:{ cbn in H. discriminate H. }
  rewrite (find_at Ec). cbn [bind].
  destruct (sharding (Some codecs)) as [cfg|] eqn:ES.
  - rewrite (sharding_read ES). cbn [bind].
    destruct (extents (member "chunk_shape" cfg)) as [inner|] eqn:EI; [|discriminate H].
    destruct (v3_chain (el_width e) (member "codecs" cfg)) as [[big st]|] eqn:EC; [|discriminate H].
    destruct (same_rank sh inner && plain_index cfg)%bool eqn:ER; [|discriminate H]. injection H as <-.
    apply Bool.andb_true_iff in ER. destruct ER as [ER _].
    unfold parameters in Op. cbn [do_layout do_stream] in Op. rewrite member_find, Ec, ES in Op.
    destruct (extents_find EI) as (vi & Fi & Si & _). rewrite (find_at Fi). cbn [bind]. rewrite Si. cbn [bind].
    rewrite member_find in EC, Op. destruct (jfind "codecs" cfg) as [ic|] eqn:Eic; [|discriminate EC]. rewrite (find_at Eic). cbn [bind].
    destruct (chain_accepts EC Op) as (r & -> & Hc). cbn [bind]. unfold check_shapes. cbn [md_shape md_chunks]. rewrite (same_rank_len ER).
    eexists. split; [reflexivity|exact Hc].
  - destruct (v3_chain (el_width e) (Some codecs)) as [[big st]|] eqn:EC; [|discriminate H]. injection H as <-.
    unfold parameters in Op. cbn [do_layout do_stream] in Op. rewrite member_find, Ec in Op.
    destruct (chain_read EC) as [FN _]. rewrite FN. cbn [bind].
    destruct (chain_accepts EC Op) as (r & -> & Hc). cbn [bind]. unfold check_shapes. cbn [md_shape md_chunks]. rewrite (same_rank_len RK).
    eexists. split; [reflexivity|exact Hc].
Qed.

Lemma read_ranks t p a : read_node t p = Some a -> length (do_shape a) = length (do_chunks a).
Proof.
  assert (R : forall x y, same_rank x y = true -> length x = length y) by (intros x y H; now apply Nat.eqb_eq).
  intros H. unfold read_node in H.
  assert (V3 : forall j, read_v3 j = Some a -> length (do_shape a) = length (do_chunks a)).
  { clear H. intros j H. unfold read_v3 in H. inv H; injection H as <-; cbn [do_shape do_chunks].
    - apply R. match goal with E : same_rank _ _ && plain_index _ = true |- _ => apply Bool.andb_true_iff in E; apply E end.
    - apply R. match goal with E : _ && same_rank _ _ = true |- _ => apply Bool.andb_true_iff in E; apply E end. }
  assert (V2 : forall j, read_v2 j = Some a -> length (do_shape a) = length (do_chunks a)).
  { clear H. intros j H. unfold read_v2 in H. inv H; injection H as <-; cbn [do_shape do_chunks].
    apply R. match goal with E : _ && same_rank _ _ = true |- _ => apply Bool.andb_true_iff in E; apply E end. }
  assert (V5 : forall j, read_n5 j = Some a -> length (do_shape a) = length (do_chunks a)).
  { clear H. intros j H. unfold read_n5 in H. inv H; injection H as <-; cbn [do_shape do_chunks]. rewrite !rev_length. now apply R. }
  destruct (t (p ++ ["zarr.json"%string])) as [[]|], (t (p ++ [".zarray"%string])) as [[]|], (t (p ++ ["attributes.json"%string])) as [[]|];
    try discriminate H; eauto.
Qed.

Theorem ordinary_opens t root key a j z : read_node t (h_path root ++ key) = Some a -> node_document t (h_path root ++ key) = Some j ->
  ordinary j a -> t (h_path root ++ key) = Some NDir ->
  is_zarr_group t (h_path root) = Ok z -> (do_layout a <> N5 -> z = true) ->
  exists o, open_dataset t root key = Ok o /\ fits a o.
Proof.
  intros R Nd O D Hz Lz.
  enough (exists o, open_dataset t root key = Ok o) as (o & Ho).
  { exists o. split; [exact Ho|]. destruct (or_fill O) as [F1 F2]. eapply opened_fits; eauto; try apply O.
    intros N. rewrite (Lz N) in Hz. exact Hz. }
  pose proof (read_ranks R) as RK.
  destruct (or_fill O) as [F1 F2]. pose proof (or_order O) as OO. pose proof (or_axes O) as OA. pose proof (or_chunks O) as OC. pose proof (or_stream O) as OS.
  unfold open_dataset. rewrite Hz. cbn [bind]. set (p := h_path root ++ key) in *. unfold read_node in R. unfold node_document in Nd.
  unfold fs_open_dataset. cbn [h_path]. unfold fs_exists at 1. rewrite D. cbn [negb].
  unfold read_dataset_metadata, metadata_doc, fs_exists.
  destruct (t (p ++ ["zarr.json"%string])) as [n1|] eqn:T1.
  - destruct n1 as [|j'|]; try discriminate R. destruct (t (p ++ [".zarray"%string])) eqn:T2; [discriminate R|].
    destruct (t (p ++ ["attributes.json"%string])) eqn:T3; [discriminate R|]. injection Nd as ->.
    cbn [orb negb andb bind]. unfold parse_doc at 1. rewrite T1. cbn [bind].
    destruct (parses_v3 R O) as (m & Hm & cfg & Hc). destruct (meant_v3 R OO F1 Hm) as (M & prefix & sep & K & L). rewrite Hm.
    assert (z = true) as -> by (apply Lz; destruct L as [-> |[-> _]]; discriminate).
    destruct (config_v3 T1 K) as (enc & -> & _). cbn [bind]. eapply make_ok; eauto.
  - destruct (t (p ++ [".zarray"%string])) as [n2|] eqn:T2.
    + destruct n2 as [|j'|]; try discriminate R. destruct (t (p ++ ["attributes.json"%string])) eqn:T3; [discriminate R|]. injection Nd as ->.
      cbn [orb negb andb bind]. unfold parse_doc at 1. rewrite T2. cbn [bind].
      destruct (parses_v2 R O) as (m & Hm & cfg & Hc). destruct (meant_v2 R OO F1 Hm) as (M & sep & L & K). rewrite Hm.
      assert (z = true) as -> by (apply Lz; rewrite L; discriminate).
      rewrite (@opened_v2_config t p j sep T1 T2 K). cbn [bind]. eapply make_ok; eauto.
    + destruct (t (p ++ ["attributes.json"%string])) as [[|j'|]|] eqn:T3; try discriminate R. injection Nd as ->.
      cbn [orb negb andb bind]. unfold parse_doc at 1. rewrite T3. cbn [bind].
      assert (L : do_layout a = N5) by (clear -R; unfold read_n5 in R; inv R; now injection R as <-).
      destruct (parses_n5 R O) as (m & Hm & cfg & Hc). destruct (meant_n5 R (OS L) Hm) as (M & _). rewrite Hm.
      unfold chunk_config, fs_exists. rewrite T1, T2. destruct z; cbn [bind]; eapply make_ok; eauto.
Qed.
