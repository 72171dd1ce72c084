(** Proofs about the compressors. *)
From Coq Require Import String.
From Verif Require Import M_Base M_Bytes M_Format M_Metadata M_Codec S_Array S_Format S_Metadata S_Codec P_Base P_Format.
Import List ListNotations.
Local Open Scope list_scope.
Local Open Scope N_scope.

Lemma u32_small n : n < 2 ^ 32 -> u32 n = n.
Proof. unfold u32. intros. now apply N.mod_small. Qed.
Lemma u32_le n : u32 n <= n.
Proof. unfold u32. apply N.mod_le. discriminate. Qed.
Arguments u32_le n : clear implicits.
Lemma u32_lt n : u32 n < 2 ^ 32.
Proof. unfold u32. apply N.mod_lt. discriminate. Qed.

Lemma bytes_at_ok n b : n <= lenN b -> bytes_at n b = Ok (firstn (N.to_nat n) b).
Proof. intros H. unfold bytes_at. destruct (N.ltb_spec (lenN b) n); [lia|reflexivity]. Qed.
Lemma bytes_at_all b : bytes_at (lenN b) b = Ok b.
Proof. rewrite bytes_at_ok by lia. now rewrite firstn_exact. Qed.

Lemma lenN_firstn {A} n (l : list A) : n <= lenN l -> lenN (firstn (N.to_nat n) l) = n.
Proof. unfold lenN. rewrite firstn_length. lia. Qed.
Lemma lenN_skipn {A} n (l : list A) : lenN (skipn (N.to_nat n) l) = lenN l - n.
Proof. unfold lenN. rewrite skipn_length. lia. Qed.
Lemma lenN_pos {A} (l : list A) : l <> [] <-> 0 < lenN l.
Proof. destruct l; [cbn; split; [congruence|unfold lenN; cbn; lia]|]. rewrite lenN_cons. split; [lia|discriminate]. Qed.

Lemma lenN_rep {A} (x : A) n : lenN (repeat x n) = N.of_nat n.
Proof. unfold lenN. now rewrite repeat_length. Qed.

Lemma write_first cap out : lenN out <= cap -> write_at cap [] 0 out = Ok out.
Proof.
  intros H. unfold write_at. destruct (N.ltb_spec cap (0 + lenN out)); [lia|].
  change (N.to_nat 0) with 0%nat. cbn. rewrite skipn_nil. now rewrite app_nil_r.
Qed.
Lemma write_over cap acc out : lenN out = cap -> lenN acc <= cap -> write_at cap acc 0 out = Ok out.
Proof.
  intros H Ha. unfold write_at. destruct (N.ltb_spec cap (0 + lenN out)); [lia|].
  change (N.to_nat 0) with 0%nat. cbn. rewrite skipn_all2 by (unfold lenN in *; lia). now rewrite app_nil_r.
Qed.
Lemma write_safe cap acc off out : off + lenN out <= cap -> lenN acc <= cap -> Forall is_byte acc -> Forall is_byte out ->
  exists acc', write_at cap acc off out = Ok acc' /\ lenN acc' <= cap /\ Forall is_byte acc'.
Proof.
  intros H Ha Ba Bo. unfold write_at. destruct (N.ltb_spec cap (off + lenN out)); [lia|]. eexists. split; [reflexivity|].
  split.
  - rewrite !lenN_app, lenN_skipn, lenN_rep. unfold lenN in *. rewrite firstn_length. lia.
  - repeat (apply Forall_app; split); auto using Forall_firstn, Forall_skipn.
    apply Forall_forall. intros x X. apply repeat_spec in X. subst x. unfold is_byte. lia.
Qed.
(** Writing nothing changes nothing. *)
Lemma write_nothing cap acc off : off <= lenN acc -> lenN acc <= cap -> write_at cap acc off [] = Ok acc.
Proof.
  intros H Ha. unfold write_at. rewrite lenN_nil, N.add_0_r. destruct (N.ltb_spec cap off); [lia|].
  replace (off - lenN acc) with 0 by lia. cbn. f_equal. apply firstn_skipn.
Qed.

Lemma subw_small c a : a <= c -> c < W64 -> subw c a = c - a.
Proof.
  intros L C. unfold subw. rewrite (N.mod_small a) by lia.
  replace (c + W64 - a) with (c - a + 1 * W64) by lia.
  rewrite N.mod_add by (rewrite W64_val; discriminate). apply N.mod_small. lia.
Qed.

Lemma loop_room w n total : 0 < w -> n * w < W64 -> total < n * w + w ->
  total / w <= n /\ subw (n * w) (mulw (total / w) w) = n * w - total / w * w.
Proof.
  intros W C T. assert (total / w <= n).
  { apply N.lt_succ_r. apply N.div_lt_upper_bound; lia. }
  split; [assumption|]. assert (total / w * w <= n * w) by nia. rewrite mulw_small by lia.
  revert H0 C. generalize (total / w * w), (n * w). clear. intros a c L C. apply subw_small; lia.
Qed.

(** ** The decompression loop *)
Section Loop.
Variable S : Type.
Variable call : stream_call S.
Variable left : S -> bytes -> nat.
Variable trunc : N -> N.
Hypothesis bounded : stream_bounded call left.
Hypothesis trunc_le : forall n, trunc n <= n.

Lemma decode_loop_safe w n : 0 < w -> n * w < W64 -> forall fuel s act inp total acc,
  (left s inp < fuel)%nat -> Forall is_byte inp -> total < n * w + w -> lenN acc <= n * w -> Forall is_byte acc ->
  match decode_loop call trunc w (n * w) fuel s act inp (total / w) total acc with
  | Ok r => lenN r <= n * w /\ Forall is_byte r | Throw _ => True | UB => False end.
Proof using bounded trunc_le.
  intros W C. induction fuel as [|fuel IH]; intros s act inp total acc F B T A BA; [lia|]. cbn [decode_loop].
  destruct (loop_room W C T) as [R1 R2]. rewrite R2.
  destruct (call s act inp (trunc (n * w - total / w * w))) as [[[s' used] out] ret] eqn:E.
  destruct (bounded B E) as (U & O & BO & L).
  pose proof (@trunc_le (n * w - total / w * w)) as TL.
  destruct (@write_safe (n * w) acc (total / w * w) out) as (acc' & -> & A' & BA'); auto; [nia|].
  cbn [bind]. destruct ret; [|now split|exact Logic.I].
  apply IH; auto using Forall_skipn. { specialize (L eq_refl). lia. }
  pose proof (N.div_mod total w). pose proof (N.mod_lt total w). nia.
Qed.

Lemma decode_start_safe w n fuel s act inp : 0 < w -> n * w < W64 -> (left s inp < fuel)%nat -> Forall is_byte inp ->
  match decode_loop call trunc w (n * w) fuel s act inp 0 0 [] with
  | Ok r => lenN r <= n * w /\ Forall is_byte r | Throw _ => True | UB => False end.
Proof using bounded trunc_le.
  intros W C F B. pose proof (@decode_loop_safe w n W C fuel s act inp 0 []) as H.
  rewrite N.div_0_l in H by lia. apply H; auto; rewrite ?lenN_nil; lia.
Qed.

(** Once everything is written the loop only waits for the end of the stream. *)
Variable dec : S -> bytes -> bytes -> Prop.
Hypothesis dec_step : forall s e b act room s' used new ret, dec s e b -> Forall is_byte e ->
    lenN b <= room -> lzma_use act e -> call s act e room = (s', used, new, ret) ->
    new = b /\ ret <> AnsOther /\ (ret = AnsOk -> dec s' (skipn (N.to_nat used) e) []).
Hypothesis trunc_id : forall n, trunc n = n.

Lemma loop_rest w cap acc : 0 < w -> lenN acc = cap -> forall fuel s act inp,
  (left s inp < fuel)%nat -> Forall is_byte inp -> dec s inp [] -> lzma_use act inp ->
  decode_loop call trunc w cap fuel s act inp (cap / w) cap acc = Ok acc.
Proof using bounded trunc_le dec_step trunc_id.
  intros W L. induction fuel as [|fuel IH]; intros s act inp F B D U; [lia|]. cbn [decode_loop].
  destruct (call s act inp _) as [[[s' used] out] ret] eqn:E.
  destruct (bounded B E) as (X & O & BO & M).
  assert (R : lenN (@nil N) <= trunc (subw cap (mulw (cap / w) w))) by (rewrite lenN_nil; lia).
  destruct (dec_step D B R U E) as (-> & NO & D'). 
  assert (cap / w * w <= cap) by (rewrite N.mul_comm; apply N.mul_div_le; lia).
  rewrite write_nothing by lia. cbn [bind]. rewrite lenN_nil, N.add_0_r.
  destruct ret; [|reflexivity|congruence].
  apply IH; auto using Forall_skipn. { specialize (M eq_refl). lia. }
  destruct (skipn (N.to_nat used) inp) eqn:Es; [reflexivity|]. destruct act; cbn in U |- *; [discriminate|].
  subst inp. rewrite skipn_nil in Es. discriminate.
Qed.

Lemma decode_loop_lossless w b s e fuel : 0 < w -> (left s e < fuel)%nat -> Forall is_byte e -> e <> [] -> lenN b < W64 ->
  dec s e b -> decode_loop call trunc w (lenN b) fuel s Run e 0 0 [] = Ok b.
Proof using bounded trunc_le dec_step trunc_id.
  intros W F B NE Lb D. destruct fuel as [|fuel]; [lia|]. cbn [decode_loop].
  assert (subw (lenN b) (mulw 0 w) = lenN b) as ->.
  { unfold mulw. rewrite N.mul_0_l. rewrite N.mod_0_l by (rewrite W64_val; discriminate). rewrite subw_small; lia. }
  rewrite trunc_id. destruct (call s Run e (lenN b)) as [[[s' used] out] ret] eqn:E.
  destruct (bounded B E) as (X & O & BO & M).
  destruct (dec_step (act := Run) D B (N.le_refl _) NE E) as (-> & NO & D').
  rewrite N.mul_0_l. rewrite write_first by lia. cbn [bind]. rewrite N.add_0_l.
  destruct ret; [|reflexivity|congruence].
  apply loop_rest; auto using Forall_skipn. { specialize (M eq_refl). lia. }
  destruct (skipn (N.to_nat used) e) eqn:Es; [reflexivity|]. cbn. discriminate.
Qed.
End Loop.

(** ** The encoding loop of xz *)
Section Encode.
Variable S : Type.
Variable call : stream_call S.
Variable left : S -> bytes -> nat.
Variable fmt : format.
Variable enc : S -> bytes -> bytes -> Prop.
Hypothesis bounded : stream_bounded call left.
Hypothesis enc_step : forall s fed out act inp room s' used new ret, enc s fed out -> Forall is_byte inp ->
    0 < room -> lzma_use act inp -> call s act inp room = (s', used, new, ret) ->
    ret <> AnsOther /\
    (ret = AnsOk -> enc s' (fed ++ firstn (N.to_nat used) inp) (out ++ new)) /\
    (ret = AnsEnd -> fmt (out ++ new) (fed ++ inp)).

Lemma xz_loop_ok size : 0 < size -> forall fuel s act inp fed acc,
  (left s inp < fuel)%nat -> Forall is_byte inp -> Forall is_byte acc -> lzma_use act inp -> enc s fed acc ->
  exists e, xz_loop call size fuel s act inp acc = Ok e /\ fmt e (fed ++ inp) /\ Forall is_byte e.
Proof using bounded enc_step.
  intros P. induction fuel as [|fuel IH]; intros s act inp fed acc F B BA U D; [lia|]. cbn [xz_loop].
  destruct (call s act inp size) as [[[s' used] out] ret] eqn:E.
  destruct (bounded B E) as (X & O & BO & M). destruct (enc_step D B P U E) as (NO & D1 & D2).
  destruct (N.ltb_spec size (lenN out)); [lia|].
  assert (Forall is_byte (acc ++ out)) by (apply Forall_app; now split).
  destruct ret; [| |congruence].
  - destruct (IH s' (match skipn (N.to_nat used) inp with [] => Finish | _ => act end) (skipn (N.to_nat used) inp)
      (fed ++ firstn (N.to_nat used) inp) (acc ++ out)) as (e & -> & Fe & Be); auto using Forall_skipn.
    { specialize (M eq_refl). lia. }
    { destruct (skipn (N.to_nat used) inp) eqn:Es; [reflexivity|]. destruct act; cbn in U |- *; [discriminate|].
      subst inp. rewrite skipn_nil in Es. discriminate. }
    exists e. split; [reflexivity|]. rewrite <- app_assoc, firstn_skipn in Fe. now split.
  - eexists. split; [reflexivity|]. split; [now apply D2|assumption].
Qed.
End Encode.

(** ** Each compressor: accepted inputs, stored data, what is read, safety *)

Lemma zlib_accepts z fmt f lv b : zlib_contract z fmt -> (-1 <= lv <= 9)%Z -> Forall is_byte b ->
  lenN b < 2 ^ 32 -> zl_bound z f lv (lenN b) < 2 ^ 32 -> exists e, zlib_compress z f lv b = Ok e.
Proof.
  intros C L B S1 S2. unfold zlib_compress. rewrite (zc_init C) by assumption. cbn [negb].
  rewrite !u32_small by assumption. rewrite bytes_at_all. cbn [bind].
  destruct (zl_deflate z f lv Finish b (zl_bound z f lv (lenN b))) as [ret out] eqn:E.
  destruct (zc_deflate C B E) as (O & BO & F & R). rewrite (R L (N.le_refl _)) in *.
  destruct (N.ltb_spec (zl_bound z f lv (lenN b)) (lenN out)); [lia|]. eauto.
Qed.

(** What is compressed are the first bytes, as many as fit into 32 bits. *)
Lemma zlib_stores z fmt f lv b e : zlib_contract z fmt -> Forall is_byte b -> zlib_compress z f lv b = Ok e ->
  fmt f e (firstn (N.to_nat (u32 (lenN b))) b) /\ Forall is_byte e /\ lenN e < 2 ^ 32.
Proof.
  intros C B. unfold zlib_compress. destruct (negb _); [discriminate|]. rewrite bytes_at_ok by apply u32_le. cbn [bind].
  destruct (zl_deflate _ _ _ _ _ _) as [ret out] eqn:E. destruct (zc_deflate C (Forall_firstn _ B) E) as (O & BO & F & _).
  destruct (N.ltb_spec (zl_bound z f lv (lenN b)) (lenN out)); [discriminate|]. destruct ret; try discriminate.
  intros X. injection X as <-. split; [auto|]. split; [assumption|].
  pose proof (u32_lt (zl_bound z f lv (lenN b))). lia.
Qed.

Lemma mulw_multiple n w : In w [1; 2; 4; 8; 16; 32] -> exists k, mulw n w = k * w /\ k * w < W64.
Proof.
  intros W. unfold mulw. destruct W as [<-|[<-|[<-|[<-|[<-|[<-|[]]]]]]]; rewrite W64_val;
      [exists (n * 1 mod 18446744073709551616)|exists (n * 2 mod 18446744073709551616 / 2)
      |exists (n * 4 mod 18446744073709551616 / 4)|exists (n * 8 mod 18446744073709551616 / 8)
      |exists (n * 16 mod 18446744073709551616 / 16)|exists (n * 32 mod 18446744073709551616 / 32)]; lia.
Qed.

Lemma zlib_recovers z fmt f w e b cap : zlib_contract z fmt -> fmt f e b -> Forall is_byte e ->
  lenN e < 2 ^ 32 -> cap < W64 -> lenN b <= u32 cap -> zlib_decompress z w e cap = Ok b.
Proof.
  intros C F B S1 S2 S3. unfold zlib_decompress. destruct (zc_start C) as (s & -> & H).
  rewrite u32_small by assumption. rewrite bytes_at_all. cbn [bind decode_loop].
  assert (subw cap (mulw 0 w) = cap) as ->.
  { unfold mulw. rewrite N.mul_0_l. rewrite N.mod_0_l by (rewrite W64_val; discriminate).
    rewrite subw_small; lia. }
  destruct (H f e b (u32 cap) F B S3) as (s' & ->). pose proof (u32_le cap).
  rewrite N.mul_0_l. rewrite write_first by lia. reflexivity.
Qed.

Lemma zlib_dec_safe z fmt w payload n : zlib_contract z fmt -> In w [1; 2; 4; 8; 16; 32] -> Forall is_byte payload ->
  match zlib_decompress z w payload (mulw n w) with
  | Ok r => lenN r <= mulw n w /\ Forall is_byte r | Throw _ => True | UB => False end.
Proof.
  intros C W B. unfold zlib_decompress. destruct (zc_start C) as (s & -> & _).
  rewrite bytes_at_ok by apply u32_le. cbn [bind].
  destruct (mulw_multiple n W) as (k & -> & K).
  assert (0 < w) by (destruct W as [<-|[<-|[<-|[<-|[<-|[<-|[]]]]]]]; lia).
  apply (decode_start_safe (zc_bounded C)); auto using u32_le, Forall_firstn.
Qed.

Lemma clamp_ok level : (1 <= clamp_level level <= 12)%Z.
Proof. unfold clamp_level. destruct (Z.ltb_spec level 1); [lia|]. destruct (Z.ltb_spec 12 level); lia. Qed.

Lemma deflate_accepts l fmt f lv b : deflate_contract l fmt -> Forall is_byte b ->
  exists e, deflate_compress l f lv b = Ok e.
Proof.
  intros C B. unfold deflate_compress. rewrite (dc_compressor C (clamp_ok lv)). cbn [negb].
  set (room := ld_bound _ _ _ _). destruct (dc_compress C f (clamp_level lv) room B) as (L & BO & _ & NE).
  destruct (N.ltb_spec room (lenN (ld_compress l f (clamp_level lv) b room))); [lia|].
  specialize (NE (clamp_ok lv) (N.le_refl _)). destruct (ld_compress _ _ _ _ _); [congruence|]. eauto.
Qed.
Lemma deflate_stores l fmt f lv b e : deflate_contract l fmt -> Forall is_byte b ->
  deflate_compress l f lv b = Ok e -> fmt f e b /\ Forall is_byte e.
Proof.
  intros C B. unfold deflate_compress. destruct (negb _); [discriminate|].
  set (room := ld_bound _ _ _ _). destruct (dc_compress C f (clamp_level lv) room B) as (L & BO & F & _).
  destruct (_ <? _); [discriminate|]. destruct (ld_compress _ _ _ _ _) eqn:E; [discriminate|].
  intros X. injection X as <-. split; [|assumption]. apply F. discriminate.
Qed.
Lemma deflate_recovers l fmt f f' e b : deflate_contract l fmt -> fmt f e b -> Forall is_byte e ->
  deflate_decompress l f' e (lenN b) = Ok b.
Proof.
  intros C F B. unfold deflate_decompress. rewrite (dc_decompressor C). cbn [negb].
  destruct (dc_decompress C F B (N.le_refl _)) as [D1 D2].
  destruct (Bool.eqb f' f) eqn:Ef.
  - apply eqb_prop in Ef. subst f'. rewrite D1. rewrite write_first by lia. reflexivity.
  - assert (f' = negb f) as -> by (destruct f, f'; auto; discriminate).
    destruct (dc_bounded C (negb f) (lenN b) B) as [L _].
    destruct (ld_decompress l (negb f) e (lenN b)) as [ok out]. cbn in D2, L. subst ok.
    rewrite write_first by lia. cbn [bind]. rewrite negb_involutive, D1. rewrite write_over by lia. reflexivity.
Qed.
Lemma deflate_dec_safe l fmt f payload cap : deflate_contract l fmt -> Forall is_byte payload ->
  match deflate_decompress l f payload cap with
  | Ok r => lenN r <= cap /\ Forall is_byte r | Throw _ => True | UB => False end.
Proof.
  intros C B. unfold deflate_decompress. destruct (negb _); [exact Logic.I|].
  destruct (dc_bounded C f cap B) as [L1 B1]. destruct (ld_decompress l f payload cap) as [ok out]. cbn in L1, B1.
  rewrite write_first by lia. cbn [bind]. destruct ok; [now split|].
  destruct (dc_bounded C (negb f) cap B) as [L2 B2]. destruct (ld_decompress l (negb f) payload cap) as [ok out2]. cbn in L2, B2.
  destruct (@write_safe cap out 0 out2) as (a & -> & A1 & A2); auto. cbn [bind]. destruct ok; [now split|exact Logic.I].
Qed.

Lemma bzip2_accepts z fmt need w lv b : bzip2_contract z fmt need -> (1 <= lv <= 9)%Z -> Forall is_byte b ->
  lenN b < 2 ^ 32 -> bzip2_room w (lenN b / w) < 2 ^ 32 -> need (lenN b) <= bzip2_room w (lenN b / w) ->
  exists e, bzip2_compress z w lv b = Ok e.
Proof.
  intros C L B S1 S2 S3. unfold bzip2_compress. rewrite (bc_init C) by assumption. cbn [negb].
  rewrite !u32_small by assumption. rewrite bytes_at_all. cbn [bind].
  destruct (bz_compress z lv b _) as [ret out] eqn:E.
  destruct (bc_compress C B E) as (O & BO & F & R). rewrite (R L S3) in *.
  destruct (_ <? _) eqn:X; [lia|]. eauto.
Qed.
(** What is stored: a stream for the first bytes, as many as fit into 32 bits, then
    zeros, a multiple of 4 GiB. *)
Lemma bzip2_stores z fmt need w lv b e : bzip2_contract z fmt need -> Forall is_byte b ->
  bzip2_compress z w lv b = Ok e ->
  exists out q, e = out ++ repeat 0 (N.to_nat (q * 2 ^ 32)) /\ fmt out (firstn (N.to_nat (u32 (lenN b))) b) /\
    Forall is_byte out /\ lenN out < 2 ^ 32.
Proof.
  intros C B. unfold bzip2_compress. destruct (negb _); [discriminate|]. rewrite bytes_at_ok by apply u32_le. cbn [bind].
  destruct (bz_compress _ _ _ _) as [ret out] eqn:E. destruct (bc_compress C (Forall_firstn _ B) E) as (O & BO & F & _).
  set (room := bzip2_room w (lenN b / w)) in *.
  destruct (N.ltb_spec room (lenN out)); [discriminate|]. destruct ret; try discriminate.
  intros X. injection X as <-. exists out, (room / 2 ^ 32). split; [|split; [auto|split; [assumption|]]].
  - f_equal. f_equal. f_equal. unfold u32. pose proof (N.div_mod room (2 ^ 32)). lia.
  - pose proof (u32_lt room). lia.
Qed.
Lemma bzip2_recovers z fmt need out q b cap : bzip2_contract z fmt need -> fmt out b -> Forall is_byte out ->
  lenN out < 2 ^ 32 -> lenN b <= u32 cap -> bzip2_decompress z (out ++ repeat 0 (N.to_nat (q * 2 ^ 32))) cap = Ok b.
Proof.
  intros C F B S1 S2. unfold bzip2_decompress. rewrite (bc_decompress_init C). cbn [negb].
  assert (u32 (lenN (out ++ repeat 0 (N.to_nat (q * 2 ^ 32)))) = lenN out) as ->.
  { rewrite lenN_app, lenN_rep, N2Nat.id. unfold u32. rewrite N.mod_add by discriminate. now apply N.mod_small. }
  rewrite bytes_at_ok by (rewrite lenN_app; lia). cbn [bind]. rewrite firstn_app_exact by reflexivity.
  rewrite (bc_decompress C F) by auto.
  pose proof (u32_le cap). rewrite write_first by lia. reflexivity.
Qed.
Lemma bzip2_dec_safe z fmt need payload cap : bzip2_contract z fmt need -> Forall is_byte payload ->
  match bzip2_decompress z payload cap with
  | Ok r => lenN r <= cap /\ Forall is_byte r | Throw _ => True | UB => False end.
Proof.
  intros C B. unfold bzip2_decompress. destruct (negb _); [exact Logic.I|]. rewrite bytes_at_ok by apply u32_le. cbn [bind].
  destruct (bc_bounded C (u32 cap) (Forall_firstn (N.to_nat (u32 (lenN payload))) B)) as [L1 B1].
  destruct (bz_decompress _ _ _) as [ret out]. cbn in L1, B1. pose proof (u32_le cap).
  rewrite write_first by lia. cbn [bind]. destruct ret; try exact Logic.I. split; [lia|assumption].
Qed.

Lemma xz_faithful z fmt enc dec lv b e : @xz_contract z fmt enc dec -> Forall is_byte b -> 0 < lenN b ->
  xz_compress z lv b = Ok e -> fmt e b /\ Forall is_byte e.
Proof.
  intros C B P. unfold xz_compress. destruct (xz_encoder z lv) as [s|] eqn:E; [|discriminate].
  assert (enc s [] []) as D by exact (xc_encoder_any C E).
  destruct (@xz_loop_ok _ (@xz_encode z) (@xz_eleft z) fmt enc (xc_encode_bounded C)) with (size := 262144) (fuel := S (xz_eleft s b))
    (s := s) (act := Run) (inp := b) (fed := @nil N) (acc := @nil N) as (e' & -> & F & Be); auto; try lia.
  - intros. eapply (xc_encode C); eauto.
  - cbn. now apply lenN_pos.
  - intros X. injection X as <-. now split.
Qed.
Lemma xz_accepts z fmt enc dec lv b : @xz_contract z fmt enc dec -> (0 <= lv <= 9)%Z -> Forall is_byte b -> 0 < lenN b ->
  exists e, xz_compress z lv b = Ok e.
Proof.
  intros C L B P. unfold xz_compress. destruct (xz_encoder z lv) as [s|] eqn:E; [|destruct (xc_encoder C L E)].
  assert (enc s [] []) as D by exact (xc_encoder_any C E).
  destruct (@xz_loop_ok _ (@xz_encode z) (@xz_eleft z) fmt enc (xc_encode_bounded C)) with (size := 262144) (fuel := S (xz_eleft s b))
    (s := s) (act := Run) (inp := b) (fed := @nil N) (acc := @nil N) as (e' & -> & F & Be); auto; try lia; eauto.
  - intros. eapply (xc_encode C); eauto.
  - cbn. now apply lenN_pos.
Qed.
Lemma xz_dec_safe z fmt enc dec w payload n : @xz_contract z fmt enc dec -> In w [1; 2; 4; 8; 16; 32] -> Forall is_byte payload ->
  match xz_decompress z w payload (mulw n w) with
  | Ok r => lenN r <= mulw n w /\ Forall is_byte r | Throw _ => True | UB => False end.
Proof.
  intros C W B. unfold xz_decompress. destruct (xc_decoder C) as (s & -> & _).
  assert (0 < w) by (destruct W as [<-|[<-|[<-|[<-|[<-|[<-|[]]]]]]]; lia).
  destruct (mulw_multiple n W) as (k & -> & K).
  apply (decode_start_safe (xc_decode_bounded C)); auto; lia.
Qed.
Lemma xz_recovers z fmt enc dec w e b : @xz_contract z fmt enc dec -> 0 < w -> fmt e b -> Forall is_byte e -> lenN b < W64 ->
  xz_decompress z w e (lenN b) = Ok b.
Proof.
  intros C W F B S. unfold xz_decompress. destruct (xc_decoder C) as (s & -> & D).
  eapply (decode_loop_lossless (xc_decode_bounded C)) with (dec := dec); eauto; try lia.
  - intros. eapply (xc_decode C); eauto.
  - exact (xc_nonempty C F).
Qed.

Lemma lz4_accepts z fmt b : lz4_contract z fmt -> Forall is_byte b -> 0 < lenN b -> lenN b <= lz4_max_input ->
  exists e, lz4_compress z b = Ok e.
Proof.
  intros C B P S. unfold lz4_compress. destruct (N.ltb_spec lz4_max_input (lenN b)); [lia|].
  set (room := l4_bound z (lenN b)). destruct (lc_compress C room B) as (L & BO & _ & NE).
  destruct (N.ltb_spec room (lenN (l4_compress z b room))); [lia|].
  specialize (NE P S (N.le_refl _)). destruct (l4_compress z b room); [congruence|]. eauto.
Qed.
Lemma lz4_stores z fmt b e : lz4_contract z fmt -> Forall is_byte b -> lz4_compress z b = Ok e ->
  fmt e b /\ Forall is_byte e /\ lenN b <= lz4_max_input /\ lenN e < 2 ^ 31.
Proof.
  intros C B. unfold lz4_compress. destruct (N.ltb_spec lz4_max_input (lenN b)) as [|S]; [discriminate|].
  pose proof (lc_bound C S) as LB. set (room := l4_bound z (lenN b)) in *. destruct (lc_compress C room B) as (L & BO & F & _).
  destruct (_ <? _); [discriminate|]. destruct (l4_compress z b room) eqn:E; [discriminate|].
  intros X. injection X as <-. split; [apply F; discriminate|]. split; [assumption|]. split; [assumption|lia].
Qed.
Lemma s32_small n : n < 2 ^ 31 -> s32 n = Z.of_N n.
Proof. intros H. unfold s32. rewrite u32_small by lia. destruct (N.ltb_spec n (2 ^ 31)); [reflexivity|lia]. Qed.
Lemma s32_le n : (s32 n <= Z.of_N n)%Z.
Proof. unfold s32. pose proof (u32_le n). pose proof (u32_lt n). destruct (N.ltb_spec (u32 n) (2 ^ 31)); lia. Qed.
Arguments s32_le n : clear implicits.
Lemma lz4_recovers z fmt e b : lz4_contract z fmt -> fmt e b -> Forall is_byte e -> 0 < lenN b -> lenN b <= lz4_max_input ->
  lenN e < 2 ^ 31 -> lz4_decompress z e (lenN b) = Ok b.
Proof.
  intros C F B P S1 S2. unfold lz4_decompress. assert (lenN b < 2 ^ 31) by (unfold lz4_max_input in S1; lia).
  rewrite !s32_small by assumption. rewrite (lc_decompress C F B) by lia.
  destruct b as [|x b]; [rewrite lenN_nil in P; lia|]. now apply write_first.
Qed.
Lemma lz4_dec_safe z fmt payload cap : lz4_contract z fmt -> Forall is_byte payload ->
  match lz4_decompress z payload cap with
  | Ok r => lenN r <= cap /\ Forall is_byte r | Throw _ => True | UB => False end.
Proof.
  intros C B. unfold lz4_decompress. destruct (lc_bounded C (s32 cap) B (s32_le (lenN payload))) as [L BO].
  destruct (l4_decompress _ _ _ _) as [|x r]; [exact Logic.I|]. pose proof (s32_le cap).
  rewrite write_first by lia. split; [lia|assumption].
Qed.

Lemma zstd_accepts z fmt lim lv b : zstd_contract z fmt lim -> Forall is_byte b -> lenN b <= lim ->
  exists e, zstd_compress z lv b = Ok e.
Proof.
  intros C B S. unfold zstd_compress. pose proof (@sc_room _ _ _ C lv _ _ B S (N.le_refl _)) as R.
  destruct (zs_compress z lv b _) as [e|] eqn:E; [|congruence]. destruct (sc_compress C B E) as (L & _).
  destruct (_ <? _) eqn:X; [lia|]. eauto.
Qed.
Lemma zstd_stores z fmt lim lv b e : zstd_contract z fmt lim -> Forall is_byte b -> zstd_compress z lv b = Ok e ->
  fmt e b /\ Forall is_byte e.
Proof.
  intros C B. unfold zstd_compress. destruct (zs_compress z lv b _) as [o|] eqn:E; [|discriminate].
  destruct (sc_compress C B E) as (L & BO & F). destruct (_ <? _); [discriminate|]. intros X. injection X as <-. now split.
Qed.
Lemma zstd_recovers z fmt lim e b : zstd_contract z fmt lim -> fmt e b -> Forall is_byte e -> zstd_decompress z e (lenN b) = Ok b.
Proof.
  intros C F B. unfold zstd_decompress. rewrite (sc_decompress C F B (N.le_refl _)). apply write_first. lia.
Qed.
Lemma zstd_dec_safe z fmt lim payload cap : zstd_contract z fmt lim -> Forall is_byte payload ->
  match zstd_decompress z payload cap with
  | Ok r => lenN r <= cap /\ Forall is_byte r | Throw _ => True | UB => False end.
Proof.
  intros C B. unfold zstd_decompress. destruct (zs_decompress z payload cap) as [o|] eqn:E; [|exact Logic.I].
  destruct (sc_bounded C B E) as [L BO]. rewrite write_first by assumption. now split.
Qed.

Lemma blosc_accepts z fmt lim w lv sh cn bs nt b : blosc_contract z fmt lim -> (0 <= lv <= 9)%Z -> Forall is_byte b ->
  0 < lenN b -> lenN b <= lim -> lenN b + blosc_max_overhead < W64 -> exists e, blosc_compress z w lv sh cn bs nt b = Ok e.
Proof.
  intros C L B P S1 S2. unfold blosc_compress. unfold addw. rewrite N.mod_small by assumption.
  destruct (@oc_compress _ _ _ C lv sh w b (lenN b + blosc_max_overhead) cn bs nt B) as (Lo & BO & _ & NE).
  destruct (_ <? _) eqn:X; [lia|]. specialize (NE L P S1 (N.le_refl _)). destruct (bl_compress _ _ _ _ _ _ _ _ _); [congruence|]. eauto.
Qed.
Lemma blosc_stores z fmt lim w lv sh cn bs nt b e : blosc_contract z fmt lim -> Forall is_byte b ->
  blosc_compress z w lv sh cn bs nt b = Ok e -> fmt e b /\ Forall is_byte e.
Proof.
  intros C B. unfold blosc_compress. set (room := addw _ _).
  destruct (@oc_compress _ _ _ C lv sh w b room cn bs nt B) as (Lo & BO & F & _).
  destruct (_ <? _); [discriminate|]. destruct (bl_compress _ _ _ _ _ _ _ _ _); [discriminate|].
  intros X. injection X as <-. split; [apply F; discriminate|assumption].
Qed.
Lemma blosc_recovers z fmt lim nt e b : blosc_contract z fmt lim -> fmt e b -> Forall is_byte e -> 0 < lenN b ->
  blosc_decompress z nt e (lenN b) = Ok b.
Proof.
  intros C F B P. unfold blosc_decompress.
  destruct (@oc_decompress _ _ _ C e b (fun _ => 0) (lenN b) nt F B (N.le_refl _)) as [D1 D2].
  destruct (bl_decompress _ _ _ _) as [seen out]. cbn in D1, D2. subst out.
  destruct (N.ltb_spec (lenN e) seen); [lia|]. destruct b as [|x b]; [rewrite lenN_nil in P; lia|].
  apply write_first. lia.
Qed.
Lemma blosc_short z fmt lim nt payload cap : blosc_contract z fmt lim -> lenN payload < 16 ->
  blosc_decompress z nt payload cap = UB.
Proof.
  intros C S. unfold blosc_decompress. pose proof (@oc_header _ _ _ C (memory payload (fun _ => 0)) cap nt) as H.
  destruct (bl_decompress _ _ _ _) as [seen out]. cbn in H. destruct (N.ltb_spec (lenN payload) seen); [reflexivity|lia].
Qed.

(** ** All compressors *)

Theorem codec_accepts l f m w c b : libraries_ok l f m -> level_ok l c -> Forall is_byte b -> 0 < lenN b ->
  size_ok l m w c (lenN b) -> exists e, stored_as (codec_of l w c) b e.
Proof.
  intros [H1 H2 (enc & dec & H3) H4 H5 H6] L B P S. unfold stored_as. destruct c; cbn [codec_of cd_raw cd_enc level_ok size_ok] in *.
  - eauto.
  - destruct S. eapply blosc_accepts; eauto.
  - destruct (lib_gzip l) as [z|d]; cbn [cd_raw cd_enc].
    + destruct S. eapply zlib_accepts; eauto.
    + eapply deflate_accepts; eauto.
  - destruct S as (S1 & S2 & S3). eapply bzip2_accepts; eauto.
  - eapply lz4_accepts; eauto.
  - eapply xz_accepts; eauto.
  - eapply zstd_accepts; eauto.
Qed.

Lemma firstn_u32 (b : bytes) : lenN b < 2 ^ 32 -> firstn (N.to_nat (u32 (lenN b))) b = b.
Proof. intros H. rewrite u32_small by assumption. now apply firstn_exact. Qed.

Theorem codec_faithful l l' f m m' w w' c c' b e : libraries_ok l f m -> libraries_ok l' f m' -> same_kind c c' ->
  0 < w' -> Forall is_byte b -> 0 < lenN b -> lenN b < W64 ->
  counters_fit l c (lenN b) -> readable_size l' c' (lenN b) (lenN e) ->
  stored_as (codec_of l w c) b e -> cd_raw (codec_of l' w' c') = true /\ e = b \/
    cd_raw (codec_of l' w' c') = false /\ cd_dec (codec_of l' w' c') e (lenN b) = Ok b.
Proof.
  intros [H1 H2 (enc & dec & H3) H4 H5 H6] [G1 G2 (enc' & dec' & G3) G4 G5 G6] K W B P S S1 S2. unfold stored_as.
  destruct c, c'; cbn [same_kind] in K; try contradiction;
    cbn [codec_of cd_raw cd_enc cd_dec counters_fit readable_size] in *; intros E.
  - left. now split.
  - right. split; [reflexivity|]. destruct (blosc_stores H6 B E). eapply blosc_recovers; eauto.
  - right.
    assert (X : exists fm, f_gzip f fm e b /\ Forall is_byte e).
    { destruct (lib_gzip l) as [z|d]; cbn [cd_raw cd_enc] in E.
      - destruct (zlib_stores H1 B E) as (F & Be & _). rewrite firstn_u32 in F by assumption. eauto.
      - destruct (deflate_stores H1 B E). eauto. }
    destruct X as (fm & F & Be). destruct (lib_gzip l') as [z'|d']; cbn [cd_raw cd_dec]; (split; [reflexivity|]).
    + destruct S2. eapply zlib_recovers; eauto. rewrite u32_small by assumption. lia.
    + eapply deflate_recovers; eauto.
  - right. split; [reflexivity|]. destruct (bzip2_stores H2 B E) as (out & q & -> & F & Bo & L).
    rewrite firstn_u32 in F by assumption. eapply bzip2_recovers; eauto. rewrite u32_small by assumption. lia.
  - right. split; [reflexivity|]. destruct (lz4_stores H4 B E) as (F & Be & L1 & L2). eapply lz4_recovers; eauto.
  - right. split; [reflexivity|]. destruct (xz_faithful H3 B P E). eapply xz_recovers; eauto.
  - right. split; [reflexivity|]. destruct (zstd_stores H5 B E). eapply zstd_recovers; eauto.
Qed.

Theorem codec_lossless l f m w c limit : libraries_ok l f m -> level_ok l c -> 0 < w -> limit < W64 ->
  (forall n, 0 < n -> n <= limit -> size_ok l m w c n) -> lossless limit (codec_of l w c).
Proof.
  intros H L W Lim S. destruct (cd_raw (codec_of l w c)) eqn:R; [now left|]. right. intros b B P Le.
  destruct (codec_accepts H L B P (S _ P Le)) as (e & E). exists e. unfold stored_as in E. rewrite R in E.
  split; [exact E|]. specialize (S _ P Le).
  destruct (@codec_faithful l l f m m w w c c b e) as [[X _]|[_ X]]; auto; try congruence; try lia.
  - destruct c; exact Logic.I.
  - destruct c; cbn [counters_fit size_ok] in *; auto.
    + destruct (lib_gzip l); tauto.
    + tauto.
  - destruct c; cbn [readable_size size_ok] in *; auto. cbn [codec_of] in E. destruct H as [H1 _ _ _ _ _].
    destruct (lib_gzip l) as [z|d]; [|exact Logic.I]. cbn [cd_enc] in E.
    destruct (zlib_stores H1 B E) as (_ & _ & Lb). tauto.
  - unfold stored_as. now rewrite R.
Qed.

Theorem codec_safe l f m w c : libraries_ok l f m -> In w [1; 2; 4; 8; 16; 32] ->
  (forall lv sh cn bs nt, c <> Cfg_blosc lv sh cn bs nt) -> safe_codec w (codec_of l w c).
Proof.
  intros [H1 H2 (enc & dec & H3) H4 H5 H6] W NB. unfold safe_codec, bounded_codec.
  destruct c; cbn [codec_of cd_raw cd_dec].
  - now left.
  - now destruct (NB level shuffle codec blocksize nthreads).
  - right. intros b n B. destruct (lib_gzip l) as [z|d]; cbn [cd_dec].
    + eapply zlib_dec_safe; eauto.
    + eapply deflate_dec_safe; eauto.
  - right. intros b n B. eapply bzip2_dec_safe; eauto.
  - right. intros b n B. eapply lz4_dec_safe; eauto.
  - right. intros b n B. eapply xz_dec_safe; eauto.
  - right. intros b n B. eapply zstd_dec_safe; eauto.
Qed.

(** zlib and bzip2 keep the size of a chunk modulo 4 GiB. *)
Theorem zlib_truncates z fmt f lv w b e : zlib_contract z fmt -> Forall is_byte b -> lenN b < W64 ->
  zlib_compress z f lv b = Ok e -> zlib_decompress z w e (lenN b) = Ok (firstn (N.to_nat (u32 (lenN b))) b).
Proof.
  intros C B S E. destruct (zlib_stores C B E) as (F & Be & L). eapply zlib_recovers; eauto.
  rewrite lenN_firstn by apply u32_le. lia.
Qed.
Theorem bzip2_truncates z fmt need lv w b e : bzip2_contract z fmt need -> Forall is_byte b ->
  bzip2_compress z w lv b = Ok e -> bzip2_decompress z e (lenN b) = Ok (firstn (N.to_nat (u32 (lenN b))) b).
Proof.
  intros C B E. destruct (bzip2_stores C B E) as (out & q & -> & F & Be & L). eapply bzip2_recovers; eauto.
  rewrite lenN_firstn by apply u32_le. lia.
Qed.

(** ** The room bzip2 gets *)
Lemma round_sig_ge p n : let u := 2 ^ (N.log2 n + 1 - p) in n / u * u <= round_sig p n.
Proof.
  cbv zeta. unfold round_sig. set (u := 2 ^ (N.log2 n + 1 - p)).
  destruct (_ <? _); [lia|]. destruct (_ <? _); [lia|]. destruct (N.even _); lia.
Qed.
Lemma round_sig_small p n : 0 < p -> n < 2 ^ p -> round_sig p n = n.
Proof.
  intros P H. unfold round_sig. replace (N.log2 n + 1 - p) with 0.
  - rewrite N.pow_0_r, N.div_1_r, N.mod_1_r. destruct (N.ltb_spec (2 * 0) 1); lia.
  - destruct (N.eq_dec n 0) as [->|Hn].
    + change (N.log2 0) with 0. lia.
    + assert (N.log2 n < p) by (apply N.log2_lt_pow2; lia). lia.
Qed.
Lemma one_percent_ge n : n < 2 ^ 24 -> n / 100 <= one_percent n.
Proof.
  intros H. unfold one_percent. rewrite (@round_sig_small 24 n eq_refl H).
  apply N.div_le_lower_bound; [discriminate|].
  set (x := n * 5764607523034235). pose proof (@round_sig_ge 53 x) as R. cbv zeta in R.
  etransitivity; [|exact R].
  assert (U : N.log2 x + 1 - 53 <= 59).
  { destruct (N.eq_dec x 0) as [->|X]; [discriminate|].
    assert (N.log2 x < 77). { apply N.log2_lt_pow2; [lia|]. subst x. lia. } lia. }
  set (e := N.log2 x + 1 - 53) in *.
  assert (E : 2 ^ 59 = 2 ^ (59 - e) * 2 ^ e) by (rewrite <- N.pow_add_r; f_equal; lia).
  rewrite E. rewrite N.mul_shuffle0. apply N.mul_le_mono_r.
  apply N.div_le_lower_bound; [apply N.pow_nonzero; discriminate|].
  replace (2 ^ e * (2 ^ (59 - e) * (n / 100))) with (2 ^ 59 * (n / 100)) by (rewrite E; lia).
  subst x. change (2 ^ 59) with 576460752303423488. lia.
Qed.
Theorem bzip2_room_ge w k : w <= 32 -> k < 2 ^ 24 -> k * w + k / 100 * w + 600 <= bzip2_room w k.
Proof.
  intros W K. pose proof (one_percent_ge K) as P.
  assert (U : one_percent k <= 2 ^ 26).
  { unfold one_percent. rewrite (@round_sig_small 24 k eq_refl K). set (x := k * 5764607523034235).
    assert (X : x < 2 ^ 77) by (subst x; lia).
    assert (round_sig 53 x <= 2 * x + 2).
    { unfold round_sig. destruct (N.eq_dec x 0) as [->|X0]; [vm_compute; discriminate|].
      set (u := 2 ^ (N.log2 x + 1 - 53)).
      assert (u <= x).
      { unfold u. etransitivity; [|apply N.log2_spec; lia]. apply N.pow_le_mono_r; [discriminate|lia]. }
      pose proof (N.div_mod x u). assert (u <> 0) by (apply N.pow_nonzero; discriminate).
      destruct (_ <? _); [nia|]. destruct (_ <? _); [nia|]. destruct (N.even _); nia. }
    apply N.div_le_upper_bound; [discriminate|].
    change (2 ^ 59 * 2 ^ 26) with (2 ^ 85). lia. }
  unfold bzip2_room, addw, mulw.
  change (2 ^ 24) with 16777216 in K. change (2 ^ 26) with 67108864 in U.
  assert (w * (k + one_percent k) <= 32 * (16777216 + 67108864)) by nia.
  rewrite W64_val. rewrite (N.mod_small (k + one_percent k)) by lia. rewrite (N.mod_small (w * (k + one_percent k))) by lia.
  rewrite N.mod_small by lia. nia.
Qed.

(** ** The functions of util *)
Theorem util_faithful l l' f m m' w c c' n data out e : libraries_ok l f m -> libraries_ok l' f m' -> same_kind c c' ->
  0 < w -> 0 < n -> n * w < W64 -> buffer_of w n data -> buffer_of w n out ->
  counters_fit l c (n * w) -> readable_size l' c' (n * w) (lenN e) ->
  compress (codec_of l w c) data n = Ok e -> decompress (codec_of l' w c') w e out n = Ok data.
Proof.
  intros Hl Hl' K W P N64 Bd Bo Cf Rs E.
  pose proof (concat_bytes Bd) as Bb. pose proof (buffer_widths Bd) as Wd. pose proof (buffer_widths Bo) as Wo.
  destruct Bd as [Ld _]. destruct Bo as [Lo _].
  assert (L : lenN (concat data) = n * w) by (rewrite (lenN_concat Wd); now rewrite Ld).
  assert (put_bytes w out (concat data) = Ok data) as Put.
  { rewrite put_bytes_cells by (auto; lia). rewrite skipn_all2, app_nil_r by (unfold lenN in *; lia). reflexivity. }
  unfold compress in E. rewrite Ld, N.ltb_irrefl in E. rewrite firstn_exact in E by assumption. rewrite <- L in *.
  assert (S : stored_as (codec_of l w c) (concat data) e).
  { unfold stored_as. destruct (cd_raw (codec_of l w c)); congruence. }
  assert (M : mulw n w = lenN (concat data)) by (unfold mulw; rewrite L; apply N.mod_small; lia).
  assert (0 < lenN (concat data)) by nia.
  unfold decompress.
  destruct (@codec_faithful l l' f m m' w w c c' (concat data) e) as [[-> ->]|[-> D]]; auto; rewrite M.
  - now rewrite N.ltb_irrefl.
  - rewrite D. exact Put.
Qed.

Lemma concat_split n w (b : bytes) : length b = (n * N.to_nat w)%nat -> concat (split_cells n w b) = b.
Proof.
  revert b. induction n as [|n IH]; intros b L; cbn [split_cells concat]; [now destruct b|].
  rewrite IH by (rewrite skipn_length; lia). apply firstn_skipn.
Qed.

(** What becomes of chunks whose size does not fit into 32 bits. *)
Theorem util_truncates l f m w c n data out e : libraries_ok l f m -> 0 < w -> n * w < W64 ->
  (match c with
   | Cfg_zlib _ _ => match lib_gzip l with inl _ => True | inr _ => False end
   | Cfg_bzip2 _ => True
   | _ => False
   end) ->
  buffer_of w n data -> buffer_of w n out ->
  compress (codec_of l w c) data n = Ok e ->
  exists got, decompress (codec_of l w c) w e out n = Ok got /\ buffer_of w n got /\
    concat got = firstn (N.to_nat (n * w mod 2 ^ 32)) (concat data) ++ skipn (N.to_nat (n * w mod 2 ^ 32)) (concat out).
Proof.
  intros Hl W N64 K Bd Bo E.
  pose proof (concat_bytes Bd) as Bb. pose proof (buffer_widths Bd) as Wd. pose proof (buffer_widths Bo) as Wo.
  pose proof Bo as Bo'. destruct Bd as [Ld _]. destruct Bo as [Lo _].
  assert (L : lenN (concat data) = n * w) by (rewrite (lenN_concat Wd); now rewrite Ld).
  assert (L' : lenN (concat out) = n * w) by (rewrite (lenN_concat Wo); now rewrite Lo).
  unfold compress in E. rewrite Ld, N.ltb_irrefl in E. rewrite firstn_exact in E by assumption.
  assert (M : mulw n w = lenN (concat data)) by (unfold mulw; rewrite L; apply N.mod_small; lia).
  pose proof (u32_le (n * w)) as U. set (k := firstn (N.to_nat (u32 (n * w))) (concat data)).
  assert (Lk : lenN k = u32 (n * w)) by (apply lenN_firstn; lia).
  assert (D : cd_raw (codec_of l w c) = false /\ cd_dec (codec_of l w c) e (mulw n w) = Ok k).
  { rewrite M. unfold k. rewrite <- L. destruct c; try contradiction; cbn in *.
    - pose proof (lo_gzip Hl) as G. destruct (lib_gzip l) as [z|d]; [|contradiction].
      split; [reflexivity|]. eapply zlib_truncates; [exact G|exact Bb|lia|exact E].
    - split; [reflexivity|]. eapply bzip2_truncates; eauto. apply (lo_bzip2 Hl). }
  destruct D as [R D]. unfold decompress. rewrite R, D. cbn [bind].
  destruct (@put_bytes_safe w n out k) as (got & Eg & Bg); auto.
  { unfold k. now apply Forall_firstn. } { lia. }
  exists got. split; [assumption|]. split; [assumption|].
  unfold put_bytes in Eg. destruct (N.leb_spec (lenN k) (lenN (concat out))); [|lia]. injection Eg as <-.
  rewrite concat_split.
  - unfold overlay. fold k. unfold u32 in *. f_equal. f_equal. unfold lenN in Lk. lia.
  - unfold overlay. rewrite app_length, skipn_length. unfold lenN in *. nia.
Qed.
