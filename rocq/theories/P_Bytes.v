(** Proofs about bytes, endianness and the n5 header. *)
From Verif Require Import M_Base S_Array S_Bytes M_Bytes M_N5Header P_Base.

Lemma reverse_elem_rev e : reverse_elem e = rev e.
Proof.
  unfold reverse_elem. apply nth_ext with (d := 0) (d' := 0).
  - rewrite map_length, seq_length, rev_length. reflexivity.
  - intros n Hn. rewrite map_length, seq_length in Hn.
    rewrite rev_nth by exact Hn.
    set (f := fun ii => nth (length e - 1 - ii) e 0).
    rewrite nth_indep with (d' := f 0%nat) by (rewrite map_length, seq_length; exact Hn).
    rewrite map_nth, seq_nth by exact Hn. unfold f. f_equal. lia.
Qed.

Lemma reverse_endian_spec es : reverse_endian es = map (@rev N) es.
Proof. unfold reverse_endian. apply map_ext. apply reverse_elem_rev. Qed.

Lemma of_le_value bs : of_le_bytes bs = value_le bs.
Proof. induction bs; cbn; congruence. Qed.

Lemma value_be_app a b : value_be (a ++ [b]) = value_be a * 256 + b.
Proof. unfold value_be. rewrite fold_left_app. reflexivity. Qed.
Lemma value_be_rev bs : value_be (rev bs) = value_le bs.
Proof. induction bs as [|b bs IH]; cbn [rev value_le]; [reflexivity|]. rewrite value_be_app, IH. lia. Qed.
Lemma value_le_rev bs : value_le (rev bs) = value_be bs.
Proof. rewrite <- value_be_rev, rev_involutive. reflexivity. Qed.

Lemma le_bytes_length n v : length (le_bytes n v) = n.
Proof. revert v; induction n; intros; cbn; auto. Qed.
Lemma le_bytes_all n v : all_bytes (le_bytes n v).
Proof. revert v; induction n as [|n IH]; intros v; cbn; constructor; [unfold is_byte; lia|apply IH]. Qed.
Lemma of_le_le n v : of_le_bytes (le_bytes n v) = v mod 256 ^ N.of_nat n.
Proof.
  revert v; induction n as [|n IH]; intros v; cbn [le_bytes of_le_bytes].
  - change (256 ^ N.of_nat 0) with 1. rewrite N.mod_1_r. reflexivity.
  - rewrite IH. replace (N.of_nat (S n)) with (N.succ (N.of_nat n)) by lia.
    rewrite N.pow_succ_r'. rewrite N.mod_mul_r by (try apply N.pow_nonzero; lia). lia.
Qed.
Lemma of_le_le_small n v : v < 256 ^ N.of_nat n -> of_le_bytes (le_bytes n v) = v.
Proof. intros. rewrite of_le_le. apply N.mod_small. assumption. Qed.
Lemma le_of_le bs : all_bytes bs -> le_bytes (length bs) (of_le_bytes bs) = bs.
Proof.
  induction 1 as [|b bs Hb H IH]; cbn [length le_bytes of_le_bytes]; [reflexivity|].
  unfold is_byte in Hb. f_equal; [lia|]. replace ((b + 256 * of_le_bytes bs) / 256) with (of_le_bytes bs) by lia.
  exact IH.
Qed.
Lemma of_le_bound bs : all_bytes bs -> of_le_bytes bs < 256 ^ lenN bs.
Proof.
  induction 1 as [|b bs Hb H IH]; cbn [of_le_bytes]; [cbv; reflexivity|].
  rewrite lenN_cons, N.add_1_r, N.pow_succ_r'. unfold is_byte in Hb. lia.
Qed.
Lemma le_bytes_inj n v w : v < 256 ^ N.of_nat n -> w < 256 ^ N.of_nat n -> le_bytes n v = le_bytes n w -> v = w.
Proof. intros Hv Hw E. rewrite <- (of_le_le_small Hv), <- (of_le_le_small Hw), E. reflexivity. Qed.

(** ** read_bytes *)
Lemma read_bytes_ok b off n : off + n <= lenN b ->
  read_bytes b off n = Ok (firstn (N.to_nat n) (skipn (N.to_nat off) b)).
Proof. intros H. unfold read_bytes. destruct (N.leb_spec (off + n) (lenN b)); [reflexivity|lia]. Qed.
Lemma read_bytes_at a m r off n : off = lenN a -> n = lenN m -> read_bytes (a ++ m ++ r) off n = Ok m.
Proof.
  intros -> ->. rewrite read_bytes_ok by (rewrite !lenN_app; lia). f_equal. unfold lenN. rewrite !Nat2N.id.
  rewrite skipn_app, skipn_all, Nat.sub_diag. cbn [skipn app].
  rewrite firstn_app, firstn_all, Nat.sub_diag. cbn [firstn]. apply app_nil_r.
Qed.
Lemma read_bytes_len b off n x : read_bytes b off n = Ok x -> lenN x = n /\ off + n <= lenN b.
Proof.
  unfold read_bytes. destruct (N.leb_spec (off + n) (lenN b)) as [H|H]; [|discriminate].
  intros [= <-]. split; [|exact H]. unfold lenN in *. rewrite firstn_length, skipn_length. lia.
Qed.
Lemma read_bytes_not_throw b off n e : read_bytes b off n <> Throw e.
Proof. unfold read_bytes. destruct (_ <=? _); discriminate. Qed.

(** ** little endian integers of the shard code *)
Lemma lor_shiftl_add v b k : v < 2 ^ k -> N.lor v (N.shiftl b k) = v + b * 2 ^ k.
Proof.
  intros H. rewrite N.shiftl_mul_pow2. rewrite <- N.lxor_lor.
  - symmetry. apply N.add_nocarry_lxor. apply N.bits_inj_0. intros i. rewrite N.land_spec.
    destruct (N.lt_ge_cases i k) as [Hi|Hi].
    + rewrite N.mul_pow2_bits_low by exact Hi. apply andb_false_r.
    + destruct (N.eq_dec v 0) as [->|Hv]; [rewrite N.bits_0; reflexivity|].
      rewrite (N.bits_above_log2 v i); [reflexivity|]. apply N.lt_le_trans with k; [|exact Hi].
      apply N.log2_lt_pow2; lia.
  - apply N.bits_inj_0. intros i. rewrite N.land_spec.
    destruct (N.lt_ge_cases i k) as [Hi|Hi].
    + rewrite N.mul_pow2_bits_low by exact Hi. apply andb_false_r.
    + destruct (N.eq_dec v 0) as [->|Hv]; [rewrite N.bits_0; reflexivity|].
      rewrite (N.bits_above_log2 v i); [reflexivity|]. apply N.lt_le_trans with k; [|exact Hi].
      apply N.log2_lt_pow2; lia.
Qed.

Lemma read_le_loop_spec p : all_bytes p -> forall i v, v < 2 ^ (8 * i) ->
  read_le_loop i p v = v + value_le p * 2 ^ (8 * i).
Proof.
  induction 1 as [|b p Hb H IH]; intros i v Hv; cbn [read_le_loop value_le]; [lia|].
  rewrite lor_shiftl_add by exact Hv.
  assert (2 ^ (8 * (i + 1)) = 256 * 2 ^ (8 * i)) as E.
  { replace (8 * (i + 1)) with (8 + 8 * i) by lia. rewrite N.pow_add_r. reflexivity. }
  rewrite IH.
  - rewrite E. lia.
  - rewrite E. unfold is_byte in Hb. nia.
Qed.
Lemma read_le_value p : all_bytes p -> read_le_loop 0 p 0 = value_le p.
Proof.
  intros H. rewrite read_le_loop_spec by (auto; cbv; reflexivity).
  replace (2 ^ (8 * 0)) with 1 by reflexivity. lia.
Qed.

Lemma byte_at v i : N.land (N.shiftr v (8 * i)) 255 = v / 256 ^ i mod 256.
Proof.
  change 255 with (N.ones 8). rewrite N.land_ones, N.shiftr_div_pow2, N.pow_mul_r. reflexivity.
Qed.

Lemma map_bytes_le n : forall k v, map (fun i => v / 256 ^ N.of_nat i mod 256) (seq k n) = le_bytes n (v / 256 ^ N.of_nat k).
Proof.
  induction n as [|n IH]; intros k v; cbn [seq map le_bytes]; [reflexivity|]. f_equal.
  rewrite IH. f_equal. rewrite N.div_div by (try apply N.pow_nonzero; lia). f_equal.
  replace (N.of_nat (S k)) with (N.succ (N.of_nat k)) by lia. rewrite N.pow_succ_r'. lia.
Qed.
Lemma write_le64_spec v : write_le64 v = le_bytes 8 v.
Proof.
  transitivity (map (fun i => v / 256 ^ N.of_nat i mod 256) (seq 0 8)).
  - unfold write_le64. cbn [map seq]. rewrite !byte_at. reflexivity.
  - rewrite map_bytes_le. change (256 ^ N.of_nat 0) with 1. rewrite N.div_1_r. reflexivity.
Qed.
Lemma write_le32_spec v : write_le32 v = le_bytes 4 v.
Proof.
  transitivity (map (fun i => v / 256 ^ N.of_nat i mod 256) (seq 0 4)).
  - unfold write_le32. cbn [map seq]. rewrite !byte_at. reflexivity.
  - rewrite map_bytes_le. change (256 ^ N.of_nat 0) with 1. rewrite N.div_1_r. reflexivity.
Qed.

Theorem le64_roundtrip v a r : v < 2 ^ 64 ->
  length (write_le64 v) = 8%nat /\ all_bytes (write_le64 v) /\
  read_le64 (a ++ write_le64 v ++ r) (lenN a) = Ok v.
Proof.
  intros Hv. rewrite write_le64_spec. split; [apply le_bytes_length|]. split; [apply le_bytes_all|].
  unfold read_le64. rewrite read_bytes_at by (auto; unfold lenN; rewrite le_bytes_length; reflexivity).
  cbn [bind]. rewrite read_le_value by apply le_bytes_all. rewrite <- of_le_value.
  f_equal. apply of_le_le_small. exact Hv.
Qed.
Theorem le32_roundtrip v a r : v < 2 ^ 32 ->
  length (write_le32 v) = 4%nat /\ all_bytes (write_le32 v) /\
  read_le32 (a ++ write_le32 v ++ r) (lenN a) = Ok v.
Proof.
  intros Hv. rewrite write_le32_spec. split; [apply le_bytes_length|]. split; [apply le_bytes_all|].
  unfold read_le32. rewrite read_bytes_at by (auto; unfold lenN; rewrite le_bytes_length; reflexivity).
  cbn [bind]. rewrite read_le_value by apply le_bytes_all. rewrite <- of_le_value.
  f_equal. apply of_le_le_small. exact Hv.
Qed.
Theorem le64_bytes bs : all_bytes bs -> length bs = 8%nat ->
  exists v, read_le64 bs 0 = Ok v /\ v = value_le bs /\ v < 2 ^ 64 /\ write_le64 v = bs.
Proof.
  intros Hb Hl. exists (value_le bs). split.
  - unfold read_le64. replace bs with ([] ++ bs ++ []) at 1 by apply app_nil_r.
    rewrite read_bytes_at by (auto; unfold lenN; rewrite Hl; reflexivity). cbn [bind].
    rewrite read_le_value by exact Hb. reflexivity.
  - split; [reflexivity|]. rewrite <- of_le_value. split.
    + pose proof (of_le_bound Hb) as H. unfold lenN in H. rewrite Hl in H. exact H.
    + rewrite write_le64_spec. rewrite <- Hl. apply le_of_le. exact Hb.
Qed.
Theorem le32_bytes bs : all_bytes bs -> length bs = 4%nat ->
  exists v, read_le32 bs 0 = Ok v /\ v = value_le bs /\ v < 2 ^ 32 /\ write_le32 v = bs.
Proof.
  intros Hb Hl. exists (value_le bs). split.
  - unfold read_le32. replace bs with ([] ++ bs ++ []) at 1 by apply app_nil_r.
    rewrite read_bytes_at by (auto; unfold lenN; rewrite Hl; reflexivity). cbn [bind].
    rewrite read_le_value by exact Hb. reflexivity.
  - split; [reflexivity|]. rewrite <- of_le_value. split.
    + pose proof (of_le_bound Hb) as H. unfold lenN in H. rewrite Hl in H. exact H.
    + rewrite write_le32_spec. rewrite <- Hl. apply le_of_le. exact Hb.
Qed.

(** ** endianness *)
Theorem endian_involutive es : reverse_endian (reverse_endian es) = es.
Proof.
  rewrite !reverse_endian_spec, map_map. rewrite <- (map_id es) at 2. apply map_ext. intros. apply rev_involutive.
Qed.
Theorem endian_elementwise es i e : getN es i = Ok e ->
  lenN (reverse_endian es) = lenN es /\
  exists e', getN (reverse_endian es) i = Ok e' /\ length e' = length e /\
    value_be e' = value_le e /\ value_le e' = value_be e.
Proof.
  intros H. split; [unfold reverse_endian, lenN; rewrite map_length; reflexivity|].
  exists (rev e). apply getN_ok in H. split.
  - apply getN_ok. rewrite reverse_endian_spec. apply map_nth_error. exact H.
  - split; [apply rev_length|]. split; [apply value_be_rev|apply value_le_rev].
Qed.

(** Byte level view: the elements of width [w] lie back to back. *)
Lemma getN_cell w : forall (es : list bytes) i j, Forall (fun e => lenN e = w) es -> j < w ->
  getN (concat es) (i * w + j) = let! e := getN es i in getN e j.
Proof.
  induction es as [|e es IH]; intros i j Hw Hj.
  - unfold getN. cbn [concat]. rewrite !lenN_nil.
    destruct (N.ltb_spec (i * w + j) 0); [lia|]. destruct (N.ltb_spec i 0); [lia|]. reflexivity.
  - inversion Hw as [|? ? He Hes]; subst. cbn [concat].
    destruct (N.eq_dec i 0) as [->|Hi].
    + unfold getN at 2. rewrite lenN_cons. destruct (N.ltb_spec 0 (lenN es + 1)); [|lia].
      change (N.to_nat 0) with 0%nat. cbn [nth_error bind]. unfold getN. rewrite lenN_app.
      destruct (N.ltb_spec (0 * lenN e + j) (lenN e + lenN (concat es))); [|lia].
      destruct (N.ltb_spec j (lenN e)); [|lia].
      rewrite nth_error_app1 by (unfold lenN in *; lia).
      replace (N.to_nat (0 * lenN e + j)) with (N.to_nat j) by lia. reflexivity.
    + assert (getN (e :: es) i = getN es (i - 1)) as ->.
      { unfold getN. rewrite lenN_cons. destruct (N.ltb_spec i (lenN es + 1)), (N.ltb_spec (i - 1) (lenN es)); try lia; [|reflexivity].
        replace (N.to_nat i) with (S (N.to_nat (i - 1))) by lia. reflexivity. }
      rewrite <- (IH (i - 1) j Hes Hj).
      unfold getN. rewrite lenN_app.
      assert (i * lenN e + j = lenN e + ((i - 1) * lenN e + j)) as E by nia.
      rewrite E. clear. generalize ((i - 1) * lenN e + j) as q. intros q.
      destruct (N.ltb_spec (lenN e + q) (lenN e + lenN (concat es))),
        (N.ltb_spec q (lenN (concat es))); try lia; [|reflexivity].
      rewrite nth_error_app2 by (unfold lenN in *; lia).
      replace (N.to_nat (lenN e + q) - length e)%nat with (N.to_nat q) by (unfold lenN in *; lia).
      reflexivity.
Qed.

Lemma getN_rev (e : bytes) j : j < lenN e -> getN (rev e) j = getN e (lenN e - 1 - j).
Proof.
  intros Hj. unfold getN, lenN in *. rewrite rev_length.
  destruct (N.ltb_spec j (N.of_nat (length e))); [|lia].
  destruct (N.ltb_spec (N.of_nat (length e) - 1 - j) (N.of_nat (length e))); [|lia].
  rewrite (nth_error_nth' (rev e) 0) by (rewrite rev_length; lia).
  rewrite (nth_error_nth' e 0) by lia.
  rewrite rev_nth by lia. do 2 f_equal. lia.
Qed.

Theorem endian_bytes w (es : list bytes) i j : Forall (fun e => lenN e = w) es -> i < lenN es -> j < w ->
  getN (concat (reverse_endian es)) (i * w + j) = getN (concat es) (i * w + (w - 1 - j)).
Proof.
  intros Hw Hi Hj. rewrite (getN_cell (w := w)); [|rewrite reverse_endian_spec|exact Hj].
  - rewrite (getN_cell (w := w)) by (auto; lia).
    destruct (getN_in Hi) as [e He]. rewrite He. cbn [bind].
    assert (lenN e = w) as Hew.
    { apply getN_ok in He. apply nth_error_In in He. rewrite Forall_forall in Hw. apply Hw. exact He. }
    assert (getN (reverse_endian es) i = Ok (rev e)) as ->.
    { apply getN_ok. rewrite reverse_endian_spec. apply map_nth_error. apply getN_ok. exact He. }
    cbn [bind]. rewrite getN_rev by lia. rewrite Hew. reflexivity.
  - clear -Hw. induction Hw; cbn; constructor; auto. unfold lenN in *. rewrite rev_length. assumption.
Qed.

(** ** n5 header *)
Lemma lenN_write_header sh vl v :
  lenN (write_n5_header sh vl v) = (lenN sh + 1) * 4 + (if vl then 4 else 0).
Proof.
  unfold write_n5_header. rewrite !lenN_app, !reverse_elem_rev.
  assert (lenN (concat (rev (reverse_endian (map (le_bytes 4) sh)))) = 4 * lenN sh) as ->.
  { rewrite reverse_endian_spec. induction sh as [|x sh IH]; [reflexivity|]. cbn [map rev]. rewrite concat_app, lenN_app, IH, lenN_cons.
    cbn [concat]. rewrite app_nil_r. unfold lenN at 2. rewrite rev_length, le_bytes_length. lia. }
  replace (lenN (rev (le_bytes 2 (if vl then 1 else 0)))) with 2
    by (unfold lenN; rewrite rev_length, le_bytes_length; reflexivity).
  replace (lenN (rev (le_bytes 2 (lenN sh)))) with 2
    by (unfold lenN; rewrite rev_length, le_bytes_length; reflexivity).
  destruct vl; [|rewrite lenN_nil; lia].
  replace (lenN (rev (le_bytes 4 v))) with 4
    by (unfold lenN; rewrite rev_length, le_bytes_length; reflexivity).
  lia.
Qed.

Lemma lenN_rev A (l : list A) : lenN (rev l) = lenN l.
Proof. unfold lenN. rewrite rev_length. reflexivity. Qed.
Lemma lenN_le_bytes n v : lenN (le_bytes n v) = N.of_nat n.
Proof. unfold lenN. rewrite le_bytes_length. reflexivity. Qed.

Lemma read_shape_entries_spec : forall es d a r, Forall (fun e => lenN e = 4) es ->
  lenN a = (d + 1) * 4 ->
  read_shape_entries (a ++ concat es ++ r) d (length es) = Ok es.
Proof.
  induction es as [|e es IH]; intros d a r Hes Ha; cbn [length read_shape_entries concat]; [reflexivity|].
  inversion Hes as [|? ? He Hes']; subst.
  rewrite <- app_assoc. rewrite read_bytes_at by auto. cbn [bind].
  replace (a ++ e ++ concat es ++ r) with ((a ++ e) ++ concat es ++ r) by (rewrite <- !app_assoc; reflexivity).
  rewrite IH; [reflexivity|exact Hes'|]. rewrite lenN_app. lia.
Qed.

Lemma read_shape_entries_ok b : forall n d, (d + 1 + N.of_nat n) * 4 <= lenN b ->
  exists es, read_shape_entries b d n = Ok es.
Proof.
  induction n as [|n IH]; intros d H; cbn [read_shape_entries]; [eauto|].
  rewrite read_bytes_ok by lia. cbn [bind].
  destruct (IH (d + 1)) as [es ->]; [lia|]. cbn [bind]. eauto.
Qed.

Lemma header_shape_back sh : Forall (fun n => n < 2 ^ 32) sh ->
  rev (map of_le_bytes (reverse_endian (rev (reverse_endian (map (le_bytes 4) sh))))) = sh.
Proof.
  intros H. rewrite !reverse_endian_spec. rewrite !map_rev, rev_involutive, !map_map.
  induction H as [|n sh Hn H IH]; [reflexivity|]. cbn [map]. rewrite IH, rev_involutive.
  rewrite of_le_le_small by exact Hn. reflexivity.
Qed.

Lemma header_entries_len sh :
  Forall (fun e => lenN e = 4) (rev (reverse_endian (map (le_bytes 4) sh))) /\
  length (rev (reverse_endian (map (le_bytes 4) sh))) = length sh.
Proof.
  split.
  - apply Forall_rev. rewrite reverse_endian_spec.
    induction sh; cbn [map]; constructor; auto.
  - rewrite rev_length, reverse_endian_spec, !map_length. reflexivity.
Qed.

Theorem n5_header_roundtrip sh vl v payload : header_ok sh v -> prod sh < W64 ->
  read_n5_header (write_n5_header sh vl v ++ payload) =
    Ok (vl, if vl then v else prod sh, lenN (write_n5_header sh vl v)).
Proof.
  intros (Hd & Hsh & Hv) Hp.
  assert (lenN (write_n5_header sh vl v ++ payload) >= lenN (write_n5_header sh vl v)) as Hlen
    by (rewrite lenN_app; lia).
  rewrite lenN_write_header in Hlen |- *.
  unfold read_n5_header. unfold write_n5_header in *.
  destruct (header_entries_len sh) as [Hes Hesl].
  set (es := rev (reverse_endian (map (le_bytes 4) sh))) in *.
  set (tail := if vl then reverse_elem (le_bytes 4 v) else []) in *.
  set (hm := reverse_elem (le_bytes 2 (if vl then 1 else 0))) in *.
  set (hn := reverse_elem (le_bytes 2 (lenN sh))) in *.
  assert (lenN hm = 2) as Lm by (unfold hm; rewrite reverse_elem_rev, lenN_rev, lenN_le_bytes; reflexivity).
  assert (lenN hn = 2) as Ln by (unfold hn; rewrite reverse_elem_rev, lenN_rev, lenN_le_bytes; reflexivity).
  assert (of_le_bytes (reverse_elem hm) = if vl then 1 else 0) as Em.
  { unfold hm. rewrite !reverse_elem_rev, rev_involutive. destruct vl; reflexivity. }
  assert (of_le_bytes (reverse_elem hn) = lenN sh) as En.
  { unfold hn. rewrite !reverse_elem_rev, rev_involutive. apply of_le_le_small.
    change (256 ^ N.of_nat 2) with 65536. exact Hd. }
  rewrite <- !app_assoc in *.
  set (whole := hm ++ hn ++ concat es ++ tail ++ payload) in *.
  destruct (N.ltb_spec (lenN whole) 4) as [|_]; [destruct vl; lia|].
  assert (read_bytes whole 0 2 = Ok hm) as -> by (apply (@read_bytes_at []); auto). cbn [bind].
  rewrite Em.
  assert (read_bytes whole 2 2 = Ok hn) as -> by (apply read_bytes_at; auto). cbn [bind].
  rewrite En.
  assert (((if vl then 1 else 0) =? 1) = vl) as -> by (destruct vl; reflexivity).
  destruct (N.ltb_spec (lenN whole) ((lenN sh + 1) * 4 + (if vl then 4 else 0))) as [|_]; [lia|].
  assert (read_shape_entries whole 0 (N.to_nat (lenN sh)) = Ok es) as ->.
  { unfold lenN at 1. rewrite Nat2N.id, <- Hesl. unfold whole.
    replace (hm ++ hn ++ concat es ++ tail ++ payload) with ((hm ++ hn) ++ concat es ++ tail ++ payload)
      by (rewrite <- !app_assoc; reflexivity).
    apply read_shape_entries_spec; [exact Hes|]. rewrite lenN_app. lia. }
  cbn [bind].
  assert (rev (map of_le_bytes (reverse_endian es)) = sh) as -> by (apply header_shape_back; exact Hsh).
  assert (lenN (concat es) = 4 * lenN sh) as Lc.
  { clear -Hes Hesl. transitivity (4 * lenN es); [|unfold lenN; rewrite Hesl; reflexivity].
    clear Hesl. induction Hes as [|e es He H IH]; [reflexivity|]. cbn [concat]. rewrite lenN_app, lenN_cons. lia. }
  destruct vl.
  - assert (read_bytes whole ((lenN sh + 1) * 4) 4 = Ok (reverse_elem (le_bytes 4 v))) as ->.
    { unfold whole, tail. replace (hm ++ hn ++ concat es ++ reverse_elem (le_bytes 4 v) ++ payload)
        with ((hm ++ hn ++ concat es) ++ reverse_elem (le_bytes 4 v) ++ payload) by (rewrite <- !app_assoc; reflexivity).
      apply read_bytes_at.
      - rewrite !lenN_app. lia.
      - rewrite reverse_elem_rev, lenN_rev, lenN_le_bytes. reflexivity. }
    cbn [bind]. rewrite !reverse_elem_rev, rev_involutive, of_le_le_small by exact Hv. reflexivity.
  - rewrite (prodw_small Hp), N.add_0_r. reflexivity.
Qed.

Lemma stream_entries_read file n : forall d es, read_shape_entries file d n = Ok es -> stream_entries file d n = es.
Proof.
  induction n as [|n IH]; intros d es H; cbn [read_shape_entries stream_entries] in *; [congruence|].
  destruct (read_bytes file ((d + 1) * 4) 4) as [e| |] eqn:He; try discriminate H. cbn [bind] in H.
  destruct (read_shape_entries file (d + 1) n) as [r| |] eqn:Hr; try discriminate H. injection H as <-.
  rewrite (IH _ _ Hr). f_equal. unfold stream_entry. unfold read_bytes in He.
  destruct (_ <=? _) eqn:L in He; [|discriminate He]. injection He as <-.
  change (N.to_nat 4) with 4%nat. rewrite firstn_app, firstn_firstn. cbn [Nat.min].
  assert (length (firstn 4 (skipn (N.to_nat ((d + 1) * 4)) file)) = 4%nat) as ->.
  { apply N.leb_le in L. unfold lenN in L. rewrite firstn_length, skipn_length. lia. }
  cbn [Nat.sub firstn]. now rewrite app_nil_r.
Qed.

Theorem n5_header_shape_roundtrip sh vl v payload : header_ok sh v ->
  read_shape_from_header (write_n5_header sh vl v ++ payload) = Ok sh /\
  read_varlen_from_header (write_n5_header sh vl v ++ payload) = Ok (if vl then Some v else None).
Proof.
  intros (Hd & Hsh & Hv).
  unfold read_shape_from_header, read_varlen_from_header, write_n5_header.
  destruct (header_entries_len sh) as [Hes Hesl].
  set (es := rev (reverse_endian (map (le_bytes 4) sh))) in *.
  set (tail := if vl then reverse_elem (le_bytes 4 v) else []) in *.
  set (hm := reverse_elem (le_bytes 2 (if vl then 1 else 0))) in *.
  set (hn := reverse_elem (le_bytes 2 (lenN sh))) in *.
  assert (lenN hm = 2) as Lm by (unfold hm; rewrite reverse_elem_rev, lenN_rev, lenN_le_bytes; reflexivity).
  assert (lenN hn = 2) as Ln by (unfold hn; rewrite reverse_elem_rev, lenN_rev, lenN_le_bytes; reflexivity).
  assert (of_le_bytes (reverse_elem hm) = if vl then 1 else 0) as Em.
  { unfold hm. rewrite !reverse_elem_rev, rev_involutive. destruct vl; reflexivity. }
  assert (of_le_bytes (reverse_elem hn) = lenN sh) as En.
  { unfold hn. rewrite !reverse_elem_rev, rev_involutive. apply of_le_le_small.
    change (256 ^ N.of_nat 2) with 65536. exact Hd. }
  rewrite <- !app_assoc in *.
  set (whole := hm ++ hn ++ concat es ++ tail ++ payload) in *.
  assert (read_bytes whole 0 2 = Ok hm) as -> by (apply (@read_bytes_at []); auto).
  assert (read_bytes whole 2 2 = Ok hn) as -> by (apply read_bytes_at; auto). cbn [bind].
  rewrite Em, En.
  assert (lenN (concat es) = 4 * lenN sh) as Lc.
  { clear -Hes Hesl. transitivity (4 * lenN es); [|unfold lenN; rewrite Hesl; reflexivity].
    clear Hesl. induction Hes as [|e es He H IH]; [reflexivity|]. cbn [concat]. rewrite lenN_app, lenN_cons. lia. }
  split.
  - assert (stream_entries whole 0 (N.to_nat (lenN sh)) = es) as ->.
    { apply stream_entries_read. unfold lenN at 1. rewrite Nat2N.id, <- Hesl. unfold whole.
      replace (hm ++ hn ++ concat es ++ tail ++ payload) with ((hm ++ hn) ++ concat es ++ tail ++ payload)
        by (rewrite <- !app_assoc; reflexivity).
      apply read_shape_entries_spec; [exact Hes|]. rewrite lenN_app. lia. }
    f_equal. apply header_shape_back; exact Hsh.
  - destruct vl; [|reflexivity]. change (1 =? 0) with false. cbn iota.
    assert (read_bytes whole ((lenN sh + 1) * 4) 4 = Ok (reverse_elem (le_bytes 4 v))) as ->.
    { unfold whole, tail. replace (hm ++ hn ++ concat es ++ reverse_elem (le_bytes 4 v) ++ payload)
        with ((hm ++ hn ++ concat es) ++ reverse_elem (le_bytes 4 v) ++ payload) by (rewrite <- !app_assoc; reflexivity).
      apply read_bytes_at.
      - rewrite !lenN_app. lia.
      - rewrite reverse_elem_rev, lenN_rev, lenN_le_bytes. reflexivity. }
    cbn [bind]. rewrite !reverse_elem_rev, rev_involutive, of_le_le_small by exact Hv. reflexivity.
Qed.

Theorem n5_header_safe b :
  (exists vl sz h, read_n5_header b = Ok (vl, sz, h) /\ h <= lenN b) \/ read_n5_header b = Throw ERuntime.
Proof.
  unfold read_n5_header. destruct (N.ltb_spec (lenN b) 4) as [|H4]; [right; reflexivity|].
  rewrite (@read_bytes_ok b 0 2), (@read_bytes_ok b 2 2) by lia. cbn [bind].
  set (ndim := of_le_bytes (reverse_elem (firstn _ (skipn (N.to_nat 2) b)))).
  set (mode := of_le_bytes (reverse_elem (firstn _ (skipn (N.to_nat 0) b)))).
  destruct (N.ltb_spec (lenN b) ((ndim + 1) * 4 + (if mode =? 1 then 4 else 0))) as [|Hf]; [right; reflexivity|].
  left. destruct (@read_shape_entries_ok b (N.to_nat ndim) 0) as [es ->].
  { destruct (mode =? 1); lia. }
  cbn [bind]. destruct (mode =? 1).
  - rewrite read_bytes_ok by lia. cbn [bind]. do 3 eexists. split; [reflexivity|]. lia.
  - do 3 eexists. split; [reflexivity|]. lia.
Qed.

Lemma firstn_strict A (p l : list A) : strict_prefix p l -> lenN p < lenN l /\ p = firstn (length p) l.
Proof.
  intros (x & r & ->). split; [rewrite lenN_app, lenN_cons; lia|].
  rewrite firstn_app, Nat.sub_diag, firstn_all. cbn. rewrite app_nil_r. reflexivity.
Qed.

Lemma read_bytes_prefix p q off n : off + n <= lenN p -> read_bytes (p ++ q) off n = read_bytes p off n.
Proof.
  intros H. rewrite !read_bytes_ok by (rewrite ?lenN_app; lia). f_equal.
  unfold lenN in H. rewrite skipn_app, firstn_app, skipn_length.
  replace (N.to_nat n - (length p - N.to_nat off))%nat with 0%nat by lia. cbn [firstn]. apply app_nil_r.
Qed.

Theorem n5_header_prefix_rejected sh vl v p : header_ok sh v -> prod sh < W64 ->
  strict_prefix p (write_n5_header sh vl v) -> read_n5_header p = Throw ERuntime.
Proof.
  intros Hok Hp (x & r & E).
  assert (lenN p < lenN (write_n5_header sh vl v)) as Hl by (rewrite E, lenN_app, lenN_cons; lia).
  pose proof (@n5_header_roundtrip sh vl v [] Hok Hp) as Hr. rewrite app_nil_r in Hr.
  rewrite lenN_write_header in Hl, Hr.
  unfold read_n5_header in *. destruct (N.ltb_spec (lenN p) 4) as [|H4]; [reflexivity|].
  rewrite E in Hr.
  destruct (lenN (p ++ x :: r) <? 4); [discriminate|].
  rewrite !read_bytes_prefix in Hr by lia.
  destruct (read_bytes p 0 2) as [m| |]; cbn [bind] in *; try discriminate.
  destruct (read_bytes p 2 2) as [nd| |]; cbn [bind] in *; try discriminate.
  set (ndim := of_le_bytes (reverse_elem nd)) in *.
  set (mode := of_le_bytes (reverse_elem m)) in *.
  assert ((ndim + 1) * 4 + (if mode =? 1 then 4 else 0) = (lenN sh + 1) * 4 + (if vl then 4 else 0)) as Eq.
  { destruct (lenN (p ++ x :: r) <? (ndim + 1) * 4 + (if mode =? 1 then 4 else 0)); [discriminate|].
    destruct (read_shape_entries _ _ _); cbn [bind] in Hr; try discriminate.
    destruct (mode =? 1).
    - destruct (read_bytes _ _ 4); cbn [bind] in Hr; try discriminate. congruence.
    - injection Hr as H1 H2 H3. destruct vl; [discriminate|]. lia. }
  rewrite Eq. destruct (N.ltb_spec (lenN p) ((lenN sh + 1) * 4 + (if vl then 4 else 0))); [reflexivity|lia].
Qed.

Theorem n5_header_large_refuted :
  exists sh payload, Forall (fun n => n < W64) sh /\ prod sh < W64 /\
    read_n5_header (write_n5_header sh false 0 ++ payload) <>
      Ok (false, prod sh, lenN (write_n5_header sh false 0)).
Proof.
  exists [4294967296 + 3], []. split; [repeat constructor|]. split; [reflexivity|]. vm_compute. discriminate.
Qed.
Theorem n5_header_varlen_refuted :
  exists v payload, v < W64 /\
    read_n5_header (write_n5_header [2] true v ++ payload) <>
      Ok (true, v, lenN (write_n5_header [2] true v)).
Proof. exists (4294967296 + 3), []. split; [reflexivity|]. vm_compute. discriminate. Qed.

(** checkVarlenChunk and readChunk disagree on an unknown mode, and header reads
    of truncated files through the stream are undefined. *)
Theorem n5_mode_disagree :
  exists b n, read_n5_header b = Ok (false, 6, 12) /\ read_varlen_from_header b = Ok (Some n).
Proof. exists [0;2; 0;2; 0;0;0;2; 0;0;0;3; 0;0;0;9], 9. split; reflexivity. Qed.
Theorem n5_stream_header_unsafe :
  exists sh v p, header_ok sh v /\ strict_prefix p (write_n5_header sh true v) /\
    read_varlen_from_header p = UB /\ read_shape_from_header p = UB.
Proof.
  exists [2; 3], 5, [0; 1; 0]. split.
  - split; [reflexivity|]. split; [repeat constructor|reflexivity].
  - split; [|split; reflexivity]. vm_compute. exists 2, [0;0;0;3;0;0;0;2;0;0;0;5]. reflexivity.
Qed.

Theorem varlen_flag_agree b vl sz h m : read_n5_header b = Ok (vl, sz, h) ->
  firstn 2 b = [0; m] -> m <= 1 ->
  read_varlen_from_header b = Ok (if vl then Some sz else None).
Proof.
  intros H Hm Hle. unfold read_n5_header in H. unfold read_varlen_from_header.
  destruct (N.ltb_spec (lenN b) 4) as [|H4]; [discriminate|].
  rewrite (@read_bytes_ok b 0 2), (@read_bytes_ok b 2 2) in * by lia. cbn [bind] in *.
  change (skipn (N.to_nat 0) b) with b in *. change (N.to_nat 2) with 2%nat in *. rewrite Hm in *.
  assert (of_le_bytes (reverse_elem [0; m]) = m) as Em.
  { rewrite reverse_elem_rev. cbn. lia. }
  rewrite Em in *. set (ndim := of_le_bytes _) in *.
  destruct (N.eqb_spec m 1) as [->|Hne].
  - change (1 =? 0) with false. cbn iota in *.
    destruct (lenN b <? (ndim + 1) * 4 + 4); [discriminate|].
    destruct (read_shape_entries b 0 (N.to_nat ndim)); try discriminate. cbn [bind] in H.
    destruct (read_bytes b ((ndim + 1) * 4) 4); try discriminate. cbn [bind] in *.
    injection H as <- <- <-. reflexivity.
  - assert (m = 0) as -> by lia. change (0 =? 0) with true. cbn iota.
    destruct (lenN b <? (ndim + 1) * 4 + 0); [discriminate|].
    destruct (read_shape_entries b 0 (N.to_nat ndim)); try discriminate. cbn [bind] in H.
    injection H as <- _ _. reflexivity.
Qed.
