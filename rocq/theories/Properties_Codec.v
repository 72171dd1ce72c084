(** Properties C71 and C72: the compressors. *)
From Coq Require Import String.
From Verif Require Import M_Base M_Bytes M_Format M_Metadata M_Codec S_Array S_Bytes S_Format S_Metadata S_Codec
  P_Base P_Bytes P_Format P_Codec P_CodecToy.
Import List ListNotations.
Local Open Scope string_scope.
Local Open Scope list_scope.
Local Open Scope N_scope.

(** C71: what a compressor made of a chunk decompresses to the chunk, whatever the
    output buffer held before; with any other settings of the same compressor, and with
    any other build of z5 whose libraries agree on the formats, e.g. libdeflate
    instead of zlib. *)
Theorem C71_faithful l l' f m m' w c c' n data out e :
  libraries_ok l f m -> libraries_ok l' f m' -> same_kind c c' ->
  0 < w -> 0 < n -> n * w < W64 -> buffer_of w n data -> buffer_of w n out ->
  counters_fit l c (n * w) -> readable_size l' c' (n * w) (lenN e) ->
  compress (codec_of l w c) data n = Ok e -> decompress (codec_of l' w c') w e out n = Ok data.
Proof. exact (@util_faithful l l' f m m' w c c' n data out e). Qed.
Print Assumptions C71_faithful.

(** C71: chunks of the sizes that the library accepts are compressed, and the codec
    loses nothing (the hypothesis of the theorems about datasets). *)
Theorem C71_lossless l f m w c limit : libraries_ok l f m -> level_ok l c -> 0 < w -> limit < W64 ->
  (forall n, 0 < n -> n <= limit -> size_ok l m w c n) -> lossless limit (codec_of l w c).
Proof. exact (@codec_lossless l f m w c limit). Qed.
Print Assumptions C71_lossless.

(** C71: the settings that a dataset gets by default are accepted. *)
Theorem C71_defaults l k zarr c : init_compressor k (default_options k zarr []) = Ok c -> level_ok l c.
Proof.
  destruct k, zarr; cbn; intros E; injection E as <-; cbn; try exact Logic.I; try lia; destruct (lib_gzip l); exact Logic.I || lia.
Qed.
Print Assumptions C71_defaults.

(** C71: the room that is reserved for bzip2. *)
Theorem C71_bzip2_room w k : w <= 32 -> k < 2 ^ 24 -> k * w + k / 100 * w + 600 <= bzip2_room w k.
Proof. exact (@bzip2_room_ge w k). Qed.
Print Assumptions C71_bzip2_room.

(** A bzip2 library that insists on the room its manual asks for. *)
Definition strict_libraries := toy_libraries bzip2_documented.
Lemma strict_libraries_ok deflate : libraries_ok (strict_libraries deflate) toy_formats (toy_limits bzip2_documented).
Proof. apply toy_libraries_ok. intros n. unfold bzip2_documented. lia. Qed.

(** 100 elements of two bytes: every compressor accepts them, and the chunks written
    with zlib are read with libdeflate. *)
Example C71_case : forall c, In c [Cfg_blosc 5 1 "lz4" 0 1; Cfg_zlib 5 true; Cfg_zlib 5 false; Cfg_bzip2 9; Cfg_lz4 6; Cfg_xz 6; Cfg_zstd 3] ->
  let data := repeat [1; 2] 100 in
  buffer_of 2 100 data /\ buffer_of 2 100 (repeat [0; 0] 100) /\
  level_ok (strict_libraries false) c /\ counters_fit (strict_libraries false) c 200 /\
  size_ok (strict_libraries false) (toy_limits bzip2_documented) 2 c 200 /\
  exists e, compress (codec_of (strict_libraries false) 2 c) data 100 = Ok e /\
    readable_size (strict_libraries true) c 200 (lenN e) /\
    decompress (codec_of (strict_libraries true) 2 c) 2 e (repeat [0; 0] 100) 100 = Ok data.
Proof.
  intros c H. cbn zeta.
  assert (B : forall x y, is_byte x -> is_byte y -> buffer_of 2 100 (repeat [x; y] 100)).
  { intros x y X Y. split; [reflexivity|]. apply Forall_forall. intros d D. apply repeat_spec in D. subst d.
    split; [reflexivity|]. now repeat constructor. }
  split; [now apply B|]. split; [now apply B|].
  assert (L : level_ok (strict_libraries false) c) by (repeat (destruct H as [<-|H]); cbn; try exact Logic.I; lia || destruct H).
  assert (Cf : counters_fit (strict_libraries false) c 200) by (repeat (destruct H as [<-|H]); exact Logic.I || reflexivity || destruct H).
  assert (S : size_ok (strict_libraries false) (toy_limits bzip2_documented) 2 c 200).
  { repeat (destruct H as [<-|H]); try exact Logic.I; try destruct H; vm_compute; repeat split; discriminate || reflexivity. }
  split; [exact L|]. split; [exact Cf|]. split; [exact S|].
  pose proof (B 1 2 eq_refl eq_refl) as B1. pose proof (B 0 0 eq_refl eq_refl) as B0.
  destruct (@codec_accepts _ _ _ 2 c (concat (repeat [1; 2] 100)) (strict_libraries_ok false) L) as (e & E).
  { apply (concat_bytes B1). } { reflexivity. } { exact S. }
  assert (compress (codec_of (strict_libraries false) 2 c) (repeat [1; 2] 100) 100 = Ok e) as E'.
  { unfold compress. unfold stored_as in E. change (lenN (repeat [1; 2] 100) <? 100) with false.
    change (firstn (N.to_nat 100) (repeat [1; 2] 100)) with (repeat [1; 2] 100). destruct (cd_raw _); congruence. }
  assert (R : readable_size (strict_libraries true) c 200 (lenN e)) by (destruct c; exact Logic.I).
  exists e. split; [exact E'|]. split; [exact R|].
  refine (@C71_faithful _ _ _ _ _ 2 c c 100 _ _ e (strict_libraries_ok false) (strict_libraries_ok true) _ _ _ _ B1 B0 Cf R E');
    try reflexivity. now destruct c.
Qed.

(** C71 does not hold for chunks of 4 GiB: with zlib and bzip2 only the first bytes,
    up to the size modulo 2^32, are stored, and no error is raised. *)
Theorem C71_truncates l f m w c n data out e : libraries_ok l f m -> 0 < w -> n * w < W64 ->
  (match c with
   | Cfg_zlib _ _ => match lib_gzip l with inl _ => True | inr _ => False end
   | Cfg_bzip2 _ => True
   | _ => False
   end) ->
  buffer_of w n data -> buffer_of w n out ->
  compress (codec_of l w c) data n = Ok e ->
  exists got, decompress (codec_of l w c) w e out n = Ok got /\ buffer_of w n got /\
    concat got = firstn (N.to_nat (n * w mod 2 ^ 32)) (concat data) ++ skipn (N.to_nat (n * w mod 2 ^ 32)) (concat out).
Proof. exact (@util_truncates l f m w c n data out e). Qed.
Print Assumptions C71_truncates.

(** A chunk of 4 GiB and one byte: accepted by zlib and by bzip2, and only its first
    byte comes back. *)
Theorem C71_large_refuted :
  exists l f m data out, libraries_ok l f m /\ buffer_of 1 (2 ^ 32 + 1) data /\ buffer_of 1 (2 ^ 32 + 1) out /\
    forall c, In c [Cfg_zlib 5 true; Cfg_bzip2 5] -> level_ok l c /\
      exists e got, compress (codec_of l 1 c) data (2 ^ 32 + 1) = Ok e /\
        decompress (codec_of l 1 c) 1 e out (2 ^ 32 + 1) = Ok got /\ got <> data /\ tl got = tl out.
Proof.
  set (l := toy_libraries (fun n => n + 1) false).
  assert (Hl : libraries_ok l toy_formats (toy_limits (fun n => n + 1))).
  { apply toy_libraries_ok. intros n. apply N.le_refl. }
  assert (X : exists data out : list cell, buffer_of 1 (2 ^ 32 + 1) data /\ buffer_of 1 (2 ^ 32 + 1) out /\ tl out <> tl data).
  { assert (G : forall k, 2 <= k -> exists data out : list cell, buffer_of 1 k data /\ buffer_of 1 k out /\ tl out <> tl data).
    { intros k K. exists (repeat [1] (N.to_nat k)), (repeat [0] (N.to_nat k)).
      assert (forall x, is_byte x -> buffer_of 1 k (repeat [x] (N.to_nat k))).
      { intros x Hx. split; [unfold lenN; rewrite repeat_length; lia|]. apply Forall_forall. intros d D.
        apply repeat_spec in D. subst d. split; [reflexivity|]. now constructor. }
      split; [now apply H|]. split; [now apply H|].
      destruct (N.to_nat k) as [|[|j]] eqn:Ek; [lia|lia|]. discriminate. }
    apply G. discriminate. }
  destruct X as (data & out & Bd & Bo & Ne). exists l, toy_formats, (toy_limits (fun n => n + 1)), data, out.
  split; [exact Hl|]. split; [exact Bd|]. split; [exact Bo|]. intros c Hc.
  split. { destruct Hc as [<-|[<-|[]]]; cbn; lia. }
  pose proof (buffer_widths Bd) as Wd. pose proof (concat_bytes Bd) as Bb. pose proof (proj1 Bd) as Ld.
  assert (Lc : lenN (concat data) = 2 ^ 32 + 1) by (rewrite (lenN_concat Wd), Ld; reflexivity).
  assert (C : exists e, compress (codec_of l 1 c) data (2 ^ 32 + 1) = Ok e).
  { assert (At : bytes_at (u32 (2 ^ 32 + 1)) (concat data) = Ok (firstn 1 (concat data))).
    { rewrite bytes_at_ok by (rewrite Lc; discriminate). reflexivity. }
    assert (L1 : lenN (firstn 1 (concat data)) = 1). { unfold lenN in *. rewrite firstn_length. lia. }
    unfold compress. rewrite Ld, N.ltb_irrefl, firstn_exact by assumption.
    destruct Hc as [<-|[<-|[]]]; cbn [codec_of cd_raw cd_enc l toy_libraries lib_gzip lib_bzip2].
    - unfold zlib_compress. rewrite Lc, At. cbn [zl_deflate_init zl_bound zl_deflate toy_zlib bind negb].
      rewrite L1. change (1 + 1 <=? u32 (2 ^ 32 + 1 + 1)) with true. cbn match beta. rewrite lenN_cons, L1.
      change (2 ^ 32 + 1 + 1 <? 1 + 1) with false. eexists. reflexivity.
    - unfold bzip2_compress. rewrite Lc, At. cbn [bz_compress_init bz_compress toy_bzip2 bind negb].
      rewrite L1. replace (bzip2_room 1 ((2 ^ 32 + 1) / 1)) with 4337917569 by (vm_compute; reflexivity).
      change (1 + 1 <=? u32 4337917569) with true. cbn [andb]. cbn match beta. rewrite lenN_cons, L1.
      change (4337917569 <? 1 + 1) with false. eexists. reflexivity. }
  destruct C as (e & E). exists e.
  assert (W : 0 < 1) by lia. assert (N64 : (2 ^ 32 + 1) * 1 < W64) by (rewrite W64_val; reflexivity).
  destruct (@C71_truncates l _ _ 1 c (2 ^ 32 + 1) data out e Hl W N64) as (got & Eg & Bg & Cg); auto.
  { destruct Hc as [<-|[<-|[]]]; exact Logic.I. }
  exists got. split; [exact E|]. split; [exact Eg|].
  change (N.to_nat ((2 ^ 32 + 1) * 1 mod 2 ^ 32)) with 1%nat in Cg.
  assert (T : tl got = tl out).
  { assert (One : forall x : list cell, buffer_of 1 (2 ^ 32 + 1) x -> skipn 1 (concat x) = concat (tl x) /\ widths 1 (tl x)).
    { intros x [Lx Fx]. destruct Fx as [|y x [Hy _] Fx]; [discriminate Lx|]. cbn [concat tl]. split.
      - assert (length y = 1%nat) by (unfold lenN in Hy; lia). rewrite skipn_app. rewrite skipn_all2 by lia. rewrite H.
        reflexivity.
      - apply Forall_impl with (2 := Fx). intros a Ha. apply Ha. }
    destruct (One _ Bg) as [Sg Wg]. destruct (One _ Bo) as [So Wo].
    assert (Q : concat (tl got) = concat (tl out)).
    { rewrite <- Sg, <- So, Cg. destruct (concat data) eqn:Ed; [rewrite lenN_nil in Lc; discriminate Lc|]. reflexivity. }
    rewrite <- (split_concat Wg), <- (split_concat Wo), Q. f_equal.
    destruct Bg as [Lg _]. destruct Bo as [Lo _]. destruct got, out; try discriminate; cbn [tl].
    rewrite lenN_cons in Lg, Lo. unfold lenN in *. lia. }
  split; [congruence|exact T].
Qed.
Print Assumptions C71_large_refuted.

(** C71 does not hold for every bzip2 library that keeps the promise of its manual: z5
    reserves one percent of the number of elements, rounded down, so that 99 elements
    of eight bytes may be refused. *)
Theorem C71_bzip2_documented_refuted :
  exists l f data, libraries_ok l f (toy_limits bzip2_documented) /\ level_ok l (Cfg_bzip2 5) /\
    buffer_of 8 99 data /\ compress (codec_of l 8 (Cfg_bzip2 5)) data 99 = Throw ERuntime.
Proof.
  exists (strict_libraries false), toy_formats, (repeat (repeat 1 8) 99).
  split; [apply strict_libraries_ok|]. split; [cbn; lia|]. split; [|vm_compute; reflexivity].
  split; [reflexivity|]. apply Forall_forall. intros d D. apply repeat_spec in D. subst d.
  split; [reflexivity|]. repeat constructor.
Qed.
Print Assumptions C71_bzip2_documented_refuted.

(** C72: decompressing arbitrary bytes returns or throws and changes nothing but the
    buffer of the chunk, with every compressor except blosc.  Missing: blosc, for which
    it is false, see below. *)
Theorem C72_safe_partial l f m w c payload n k out : libraries_ok l f m -> In w [1; 2; 4; 8; 16; 32] ->
  (forall lv sh cn bs nt, c <> Cfg_blosc lv sh cn bs nt) ->
  Forall is_byte payload -> buffer_of w k out -> n * w <= k * w ->
  (exists out', decompress (codec_of l w c) w payload out n = Ok out' /\ buffer_of w k out') \/
  exists e, decompress (codec_of l w c) w payload out n = Throw e.
Proof.
  intros Hl Hw Hc Hp Ho Hn. apply decompress_safe; auto.
  - eapply codec_safe; eauto.
  - etransitivity; [|exact Hn]. unfold mulw. apply N.mod_le. rewrite W64_val. discriminate.
Qed.
Print Assumptions C72_safe_partial.

Example C72_case : libraries_ok (strict_libraries false) toy_formats (toy_limits bzip2_documented) /\
  decompress (codec_of (strict_libraries false) 2 (Cfg_xz 6)) 2 [5; 1; 2; 3] [[9; 9]; [9; 9]] 2 = Ok [[1; 2]; [3; 9]] /\
  decompress (codec_of (strict_libraries false) 2 (Cfg_xz 6)) 2 [5; 1; 2; 3; 4; 5] [[9; 9]; [9; 9]] 2 = Throw ERuntime.
Proof. split; [apply strict_libraries_ok|]. now vm_compute. Qed.

(** C72 does not hold for blosc: the length of a stored chunk is not passed on, and a
    chunk of less than 16 bytes is read past its end with every library. *)
Theorem C72_blosc_refuted l f m w lv sh cn bs nt payload n out : libraries_ok l f m -> lenN payload < 16 ->
  decompress (codec_of l w (Cfg_blosc lv sh cn bs nt)) w payload out n = UB.
Proof.
  intros Hl H. unfold decompress. cbn [codec_of cd_raw cd_dec].
  now rewrite (@blosc_short _ _ _ nt payload (mulw n w) (lo_blosc Hl) H).
Qed.
Print Assumptions C72_blosc_refuted.
